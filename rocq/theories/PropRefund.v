(** * PropRefund: C16 (the refund counter), C20 (who writes storage). *)
From Verif Require Import Base State Rlp Vm Instructions Precompiles Interpreter
  StateSpec StateProofs NumericProofs ArithProofs EvmStep EvmLocal EvmPlan
  EvmPlanProofs EvmCallProofs EvmFrame EvmAccounts EvmRule EvmInv EvmExamples.
From Coq Require Import ZifyBool ZifyN ZifyNat.
Ltac Zify.zify_post_hook ::= idtac.

Local Opaque to_u256 from_be_bytes calculate_memory_gas_cost ceil32 N.compare.

(** ** Refunds *)
(** The slots that were nonzero in the original storage [OG], are zero now and
    do not belong to an account created in this transaction: each of them has
    earned one clearing refund that has not been taken back. *)
Definition all_slots (OG : storages) : gset (N * N) :=
  map_fold (fun a (t : slots) acc => set_map (fun k => (a, k)) (dom t) ∪ acc) ∅ OG.
Definition cleared (OG : storages) (s : state) : gset (N * N) :=
  filter (fun p => p.1 ∉ created_accounts s /\ slot_of OG p.1 p.2 <> 0 /\
                   get_storage s p.1 p.2 = 0) (all_slots OG).

Lemma all_slots_spec OG a k : slot_of OG a k <> 0 -> (a, k) ∈ all_slots OG.
Proof.
  unfold slot_of, all_slots. intros H. destruct (OG !! a) as [t|] eqn:E; [|done].
  revert E. refine (map_fold_ind (fun r M => M !! a = Some t -> (a, k) ∈ r) _ _ _ _ OG); [done|].
  intros b t' M r Hb IH Hl. apply lookup_insert_Some in Hl as [[-> ->]|[Hne Hl]].
  - apply elem_of_union_l, elem_of_map. exists k. split; [done|]. apply elem_of_dom.
    unfold slot_trie_get in H. destruct (t !! k); [by eexists|done].
  - apply elem_of_union_r. auto.
Qed.
Lemma cleared_spec OG s a k : (a, k) ∈ cleared OG s <->
  a ∉ created_accounts s /\ slot_of OG a k <> 0 /\ get_storage s a k = 0.
Proof.
  unfold cleared. rewrite elem_of_filter. cbn. split; [by intros [? _]|].
  intros (H1 & H2 & H3). split; [done|]. by apply all_slots_spec.
Qed.
Lemma cleared_same OG s s' : created_accounts s ⊆ created_accounts s' -> same_storage s s' ->
  cleared OG s' ⊆ cleared OG s.
Proof.
  intros Hc Hs [a k]. rewrite !cleared_spec, Hs. intros (H1 & H2 & H3). split_and!; try done. auto.
Qed.

Definition credit (OG : storages) (s : state) : Z := 4800 * Z.of_nat (size (cleared OG s)).
Lemma credit_nonneg OG s : (0 <= credit OG s)%Z.
Proof. unfold credit. lia. Qed.
Lemma credit_sub OG s s' : cleared OG s' ⊆ cleared OG s -> (credit OG s' <= credit OG s)%Z.
Proof. intros H%subseteq_size. unfold credit. lia. Qed.

(** The storage against which refunds are computed. *)
Definition original (w : world) : storages :=
  match last (snapshots (st w)) with Some (_, OG) => OG | None => storage_tries (st w) end.

Lemma original_begin w : original (begin_transaction w) = original w.
Proof.
  unfold original. cbn [begin_transaction st snapshots].
  destruct (snapshots (st w)) as [|p l] eqn:E; [done|].
  by rewrite last_cons_cons.
Qed.

(** One SSTORE pays for the change of credit it causes. *)
Lemma sstore_credit OG s a k v s' orig M :
  last (snapshots s) = Some (M, OG) -> get_storage_original s a k = Ok orig ->
  set_storage s a k v = Ok s' ->
  (credit OG s' <= credit OG s + sstore_refund orig (get_storage s a k) v)%Z.
Proof.
  intros HO Hor Hs. pose proof (set_storage_frame _ _ _ _ _ Hs) as (_ & Hcr & _).
  pose proof (set_storage_get _ _ _ _ _ Hs) as Hg.
  assert (Hother : forall b j, (b, j) <> (a, k) -> (b, j) ∈ cleared OG s' <-> (b, j) ∈ cleared OG s).
  { intros b j Hne. rewrite !cleared_spec, Hcr, Hg, decide_False; [done|]. intros [-> ->]. done. }
  assert (Hin' : (a, k) ∈ cleared OG s' <-> a ∉ created_accounts s /\ slot_of OG a k <> 0 /\ v = 0).
  { rewrite cleared_spec, Hcr, Hg, decide_True by done. done. }
  pose proof (cleared_spec OG s a k) as Hin.
  assert (Horig : a ∉ created_accounts s -> orig = slot_of OG a k).
  { intros Hnc. revert Hor. unfold get_storage_original. rewrite decide_False by done. rewrite HO.
    by intros [= <-]. }
  assert (Hzero : a ∈ created_accounts s -> orig = 0).
  { intros Hc. revert Hor. unfold get_storage_original. rewrite decide_True by done. by intros [= <-]. }
  set (cur := get_storage s a k) in *.
  assert (Hcases : cleared OG s' ⊆ cleared OG s \/
    ((a, k) ∉ cleared OG s /\ cleared OG s' = {[(a, k)]} ∪ cleared OG s /\
     orig <> 0 /\ cur <> 0 /\ v = 0)).
  { destruct (decide ((a, k) ∈ cleared OG s')) as [Hi'|Hi'].
    - destruct (decide ((a, k) ∈ cleared OG s)) as [Hi|Hi].
      + left. intros [b j] Hb. destruct (decide ((b, j) = (a, k))) as [->|Hne]; [done|].
        by apply Hother.
      + right. pose proof (proj1 Hin' Hi') as (A1 & A2 & A3). split; [done|]. split.
        * apply set_eq. intros [b j]. rewrite elem_of_union, elem_of_singleton.
          destruct (decide ((b, j) = (a, k))) as [->|Hne]; [tauto|].
          rewrite Hother by done. tauto.
        * rewrite (Horig A1). split_and!; try done. intros Hc. apply Hi, Hin. done.
    - left. intros [b j] Hb. destruct (decide ((b, j) = (a, k))) as [E|Hne]; [by rewrite E in Hb|].
      by apply Hother. }
  destruct Hcases as [Hsub|(Hni & Heq & Ho & Hcu & ->)].
  - (* no new cleared slot; if the refund is negative one is lost *)
    unfold sstore_refund.
    destruct (N.eqb_spec cur v) as [Hcv|Hcv].
    { apply credit_sub in Hsub. lia. }
    destruct (N.eqb_spec orig 0) as [Ho|Ho]; cbn [negb andb].
    { apply credit_sub in Hsub. destruct (orig =? v); [|lia].
      assert (0 <= Z.of_N (GAS_STORAGE_SET - GAS_WARM_ACCESS))%Z by (vm_compute; done). lia. }
    destruct (N.eqb_spec cur 0) as [Hc|Hc]; cbn [negb andb].
    + (* cur = 0, orig <> 0, v <> 0: the slot leaves the set *)
      assert (Hnc : a ∉ created_accounts s) by (intros Hc'; by apply Ho, Hzero).
      assert (Hi : (a, k) ∈ cleared OG s) by (apply Hin; rewrite <- (Horig Hnc); done).
      assert (Hi' : (a, k) ∉ cleared OG s') by (rewrite Hin'; intros (_ & _ & ->); congruence).
      assert (Heq : cleared OG s = {[(a, k)]} ∪ cleared OG s').
      { apply set_eq. intros [b j]. rewrite elem_of_union, elem_of_singleton.
        destruct (decide ((b, j) = (a, k))) as [->|Hne]; [tauto|]. rewrite Hother by done. tauto. }
      unfold credit. rewrite Heq, size_union by set_solver. rewrite size_singleton.
      assert (Hr : forall b1 b2 : bool, (0 <= if b1 then if b2 then
        Z.of_N (GAS_STORAGE_SET - GAS_WARM_ACCESS) else
        Z.of_N (GAS_STORAGE_UPDATE - GAS_COLD_SLOAD - GAS_WARM_ACCESS) else 0)%Z).
      { intros [] []; vm_compute; done. }
      specialize (Hr (orig =? v) false). cbn [negb andb] in *.
      change (Z.of_N GAS_STORAGE_CLEAR_REFUND) with 4800%Z. lia.
    + apply credit_sub in Hsub.
      assert (Hr : forall b1 b2 : bool, (0 <= (if b1 then Z.of_N GAS_STORAGE_CLEAR_REFUND else 0) +
        0 + (if b2 then Z.of_N (GAS_STORAGE_UPDATE - GAS_COLD_SLOAD - GAS_WARM_ACCESS) else 0))%Z).
      { intros [] []; vm_compute; done. }
      specialize (Hr (v =? 0) (orig =? v)). lia.
  - unfold sstore_refund. rewrite (proj2 (N.eqb_neq cur 0) Hcu), (proj2 (N.eqb_neq orig 0) Ho).
    cbn [negb andb N.eqb]. unfold credit. rewrite Heq, size_union by set_solver.
    rewrite size_singleton, N.eqb_refl. change (Z.of_N GAS_STORAGE_CLEAR_REFUND) with 4800%Z. lia.
Qed.

Section Refund.
  Context (cr : crypto) (be : block_env) (te : tx_env).
  Notation pm := (process_message cr be te).
  Notation pcm := (process_create_message cr be te).
  Notation frame_rule := (frame_rule cr be te).
  Context (OG : storages).

  Lemma frame_original m w0 e w : fstruct m w0 e w ->
    exists M, last (snapshots (st w)) = Some (M, original w0).
  Proof.
    intros Hf. rewrite (fs_snap _ _ _ _ Hf). unfold original.
    destruct (snapshots (st w0)) as [|p l]; [by eexists|].
    rewrite last_cons_cons. destruct (last (p :: l)) as [[M O']|] eqn:E; [by eexists|].
    apply last_None in E. done.
  Qed.
  Lemma original_snap w w' : snapshots (st w') = snapshots (st w) ->
    snapshots (st w) <> [] -> original w' = original w.
  Proof.
    intros E Hne. unfold original. rewrite E. destruct (last (snapshots (st w))) as [[? ?]|] eqn:E'; [done|].
    by apply last_None in E'.
  Qed.
  Lemma original_frame m w0 e w : fstruct m w0 e w -> original w = original w0.
  Proof.
    intros Hf. destruct (frame_original _ _ _ _ Hf) as [M E]. unfold original at 1. by rewrite E.
  Qed.
  Lemma original_entry w a w3 : create_entry w a = Ok w3 -> original w3 = original w.
  Proof.
    intros He. destruct (create_entry_frame _ _ _ He) as (E & _).
    unfold original. rewrite E. destruct (snapshots (st w)) as [|p l]; [done|].
    rewrite last_cons_cons. destruct (last (p :: l)) eqn:E'; [done|]. by apply last_None in E'.
  Qed.
  Lemma credit_start w : snapshots (st w) = [] -> original w = OG -> credit OG (st w) = 0%Z.
  Proof.
    intros E Ho. unfold original in Ho. rewrite E in Ho. cbn in Ho. subst OG.
    unfold credit. assert (cleared (storage_tries (st w)) (st w) = ∅) as ->; [|done].
    apply set_eq. intros [a k]. rewrite cleared_spec, get_storage_slot. set_solver.
  Qed.

  Definition refund_post (m : message) (w0 : world) (e : evm) (w : world) : Prop :=
    owned_inv w0 w /\
    (snapshots (st w0) <> [] ->
       (credit OG (st w) <= credit OG (st w0) +
          match e_error e with None => e_refund_counter e | Some _ => 0 end)%Z) /\
    (snapshots (st w0) = [] -> e_error e = None -> (0 <= e_refund_counter e)%Z).

  Lemma refund_rule : frame_rule
    (fun m w => owned_pre m w /\ original w = OG) (fun m w => owned (st w) /\ original w = OG)
    (fun m w0 e w => owned_inv w0 w /\
       (credit OG (st w) <= credit OG (st w0) + e_refund_counter e)%Z)
    refund_post refund_post.
  Proof.
    constructor.
    - intros m w s1 [Hp HO] _ Ht. split; [by eapply owned_start|].
      pose proof (transfer_frame _ _ _ Ht) as [_ Hc]. apply transfer_same in Ht as [Ht _].
      specialize (Ht (proj1 Hp)). rewrite Z.add_0_r. apply credit_sub, cleared_same; [|done].
      cbn. by rewrite Hc.
    - intros m w0 w e' _ _ HI (_ & -> & _). done.
    - intros m w0 e w o e' w' [Hp HO] Hf [Hoi Hcr] Ha [_ He] _.
      split; [exact (owned_done _ _ _ _ _ _ _ _ Hp Hf Hoi Ha He)|].
      pose proof (effect_frame _ _ _ _ _ _ He) as (_ & _ & Hcreated).
      destruct (frame_original _ _ _ _ Hf) as [M HM]. rewrite HO in HM.
      destruct (effect_storage _ _ _ _ _ _ He (proj1 Hoi)) as [_ Hst].
      assert (Hcr' : same_storage (st w) (st w') -> e_refund_counter e' = e_refund_counter e ->
        (credit OG (st w') <= credit OG (st w0) + e_refund_counter e')%Z).
      { intros Hs ->. etrans; [apply credit_sub, cleared_same; [|exact Hs]; by rewrite Hcreated|done]. }
      destruct He as [-> Hr _|k v orig s' _ _ Hor Hs -> Hr _ _ _|k v Ho _ _ Hr _ _|b s1 s' Ho _ _ Hm Hd Hw Hr _ _
        |b sum s1 s' Ho _ _ _ _ _ Hw Hr _ _ _|s' Ho _ Hn Hw _ Hr _].
      + by apply Hcr'.
      + cbn in *. pose proof (sstore_credit _ _ _ _ _ _ _ _ HM Hor Hs). lia.
      + destruct Hst as [Hst|(? & ? & Ho' & _)]; [by apply Hcr'|congruence].
      + destruct Hst as [Hst|(? & ? & Ho' & _)]; [by apply Hcr'|congruence].
      + destruct Hst as [Hst|(? & ? & Ho' & _)]; [by apply Hcr'|congruence].
      + destruct Hst as [Hst|(? & ? & Ho' & _)]; [by apply Hcr'|destruct Ho; congruence].
    - intros m w0 e w o m' e1 os oz [Hp HO] Hf [Hoi Hcr] Ha Hc.
      pose proof (original_frame _ _ _ _ Hf) as Ho.
      split.
      + split; [|congruence]. split; [exact (proj1 Hoi)|].
        eapply call_solid; [exact Hc|]. by eapply owned_solid.
      + intros c w1 e2 w2 Hps (HP1 & HP2 & _) Hr _. apply resume_call_sets in Hr as [-> Hr].
        split. { destruct Hoi, HP1. split; [done|by eapply rises_trans]. }
        destruct (co_wait _ _ _ _ _ _ _ _ Hc) as [].
        assert (Hne : snapshots (st w) <> []) by (by rewrite (fs_snap _ _ _ _ Hf)).
        specialize (HP2 Hne). destruct (e_error c); destruct Hr as (_ & _ & _ & -> & _); lia.
    - intros m w0 e w o m' e1 wi [Hp HO] Hf [Hoi Hcr] Ha Hc.
      pose proof (original_frame _ _ _ _ Hf) as Ho.
      pose proof (owned_create _ _ _ _ _ _ _ _ _ Hoi Hc) as Hoi'.
      destruct (cr_nonce _ _ _ _ _ _ _ _ Hc) as (s1 & Hn & Hwi).
      assert (snapshots (st wi) <> [] /\ original wi = OG /\
        (credit OG (st wi) <= credit OG (st w))%Z) as (Hne & HOi & Hcri).
      { pose proof (increment_nonce_frame _ _ _ Hn) as [Hn1 Hn2].
        apply increment_nonce_same in Hn as [Hn _]. specialize (Hn (proj1 Hoi)).
        assert (Hsn : snapshots (st w) <> []) by (by rewrite (fs_snap _ _ _ _ Hf)).
        assert (Hsi : snapshots (st wi) = snapshots (st w)) by (by subst wi).
        refine (conj _ (conj _ _)); [congruence| |].
        - rewrite (original_snap _ _ Hsi Hsn). congruence.
        - subst wi. apply credit_sub, cleared_same; [|done]. cbn. by rewrite Hn2. }
      split.
      + split; [exact (proj1 Hoi')|done].
      + intros c w1 e2 w2 Hps (HP1 & HP2 & _) Hr _. apply resume_create_sets in Hr as [-> Hr].
        split. { destruct Hoi', HP1. split; [done|by eapply rises_trans]. }
        destruct (cr_wait _ _ _ _ _ _ _ _ Hc) as [].
        specialize (HP2 Hne). destruct (e_error c); destruct Hr as (_ & _ & _ & -> & _); lia.
    - intros m w0 e w [[Ho _] _] Hp He _. destruct (e_error e) as [x|] eqn:E; [|done].
      destruct (ps_fail _ _ _ _ Hp x E) as [Hr _].
      refine (conj (owned_restored _ _ Ho Hr) (conj _ _)); [|intros _ Hx; congruence].
      intros Hne. rewrite E, Z.add_0_r. apply credit_sub, cleared_same.
      + by apply (re_created _ _ Hr).
      + by apply get_storage_tries, (re_sto _ _ Hr).
    - intros m w0 e w w3 [[Ho Hso] HO] Hf [Hoi Hcr] Hc Hps.
      pose proof (commit_frame _ _ _ (fs_snap _ _ _ _ Hf) (fs_tsnap _ _ _ _ Hf) Hc)
        as (_ & Hst & _ & _ & _ & Hcc).
      refine (conj (owned_commit _ _ _ Hoi Hc) (conj _ _)).
      + intros Hne. rewrite (fs_err _ _ _ _ Hf). etrans; [|exact Hcr].
        apply credit_sub, cleared_same; [by rewrite (Hcc Hne)|by apply get_storage_tries].
      + intros Hs _. pose proof (credit_start _ Hs HO). pose proof (credit_nonneg OG (st w)). lia.
    - intros m w w3 [Ho HO] He. split; [by eapply owned_entry|].
      rewrite <- HO. by eapply original_entry.
    - intros m w w3 e w4 e' w5 [Ho HO] He _ _ _ _ Hr Hne _.
      refine (conj (owned_restored _ _ Ho Hr) (conj _ _)); [|intros _ Hx; congruence].
      destruct (e_error e') as [x|]; [|done].
      intros Hs. rewrite Z.add_0_r. apply credit_sub, cleared_same.
      + by apply (re_created _ _ Hr).
      + by apply get_storage_tries, (re_sto _ _ Hr).
    - intros m w w3 e w4 e' s5 w6 [Ho HO] He Hps (HP1 & HP2 & _) Hen Hd Hs Hc Hps6.
      destruct (owned_cok _ _ _ _ _ _ _ He Ho HP1 Hs Hc) as [Hoi Hss].
      destruct (create_entry_frame _ _ _ He) as (Hsn & _ & Hcre).
      assert (Hne3 : snapshots (st w3) <> []) by (by rewrite Hsn).
      specialize (HP2 Hne3). rewrite Hen in HP2.
      destruct (deposit_code_eq _ _ _ Hd) as (g & _ & ->).
      assert (Hsg : e_error (set_gas_left g e) = e_error e /\
        e_refund_counter (set_gas_left g e) = e_refund_counter e) by (by destruct e).
      unfold refund_post. destruct Hsg as [-> ->]. rewrite Hen.
      assert (Hc3 : (credit OG (st w3) <= credit OG (st w))%Z).
      { apply credit_sub. intros [a k]. rewrite !cleared_spec, Hcre.
        destruct (create_entry_same _ _ _ He Ho) as (_ & _ & _ & Hst & _). rewrite Hst.
        destruct (decide _) as [<-|]; [clear; set_solver|].
        intros (H1 & H2 & H3). split_and!; [clear -H1; set_solver|done|done]. }
      refine (conj Hoi (conj _ _)).
      + intros Hne. etrans; [|etrans; [exact HP2|lia]].
        apply credit_sub, cleared_same; [|done].
        pose proof (set_code_frame _ _ _ _ Hs) as [Hs1 Hs2].
        destruct (create_entry_frame _ _ _ He) as (_ & Hts & _).
        destruct (commit_frame w (set_st s5 w4) w6) as (_ & _ & _ & _ & _ & Hcc).
        * cbn. rewrite Hs1, (ps_snap _ _ _ _ Hps). done.
        * cbn. rewrite (ps_tsnap _ _ _ _ Hps), Hts. done.
        * done.
        * rewrite (Hcc Hne). cbn. by rewrite Hs2.
      + intros Hs0 _. pose proof (credit_start _ Hs0 HO). pose proof (credit_nonneg OG (st w4)). lia.
  Qed.
End Refund.

Section C16.
  Context (cr : crypto) (be : block_env) (te : tx_env).
  Notation pm := (process_message cr be te).
  Notation pcm := (process_create_message cr be te).

  (** C16.  The refund counter of a successful outermost frame, the number
      that the transaction settlement converts to an unsigned integer, is not
      negative, although single SSTOREs subtract from it.  [snapshots = []]
      says that the frame is outermost; [owned] that every account with
      storage has a nonce or code (which the deployment rules guarantee), and
      the last premise that code is only run in an account that has some. *)
  Theorem C16_refund_counter m w e w' :
    pm m w = PRet e w' -> snapshots (st w) = [] -> owned (st w) ->
    (m_code m <> [] -> solid (st w) (m_current_target m)) ->
    e_error e = None -> (0 <= e_refund_counter e)%Z.
  Proof.
    intros H Hs Ho Hc He.
    destruct (rule_message _ _ _ _ _ _ _ _ _ _ _ _ (refund_rule cr be te (original w))
      (conj (conj Ho Hc) eq_refl) H) as [_ (_ & _ & HP)]. auto.
  Qed.
  Theorem C16_refund_create m w e w' :
    pcm m w = PRet e w' -> snapshots (st w) = [] -> owned (st w) ->
    e_error e = None -> (0 <= e_refund_counter e)%Z.
  Proof.
    intros H Hs Ho He.
    destruct (rule_create _ _ _ _ _ _ _ _ _ _ _ _ (refund_rule cr be te (original w))
      (conj Ho eq_refl) H) as [_ (_ & _ & HP)]. auto.
  Qed.
  (** The refund counter of any nested frame covers the slots that frame
      cleared: 4800 for each slot that was nonzero at the start of the
      transaction, became zero and is not in an account created since. *)
  Theorem C16_nested m w e w' :
    pm m w = PRet e w' -> snapshots (st w) <> [] -> owned (st w) ->
    (m_code m <> [] -> solid (st w) (m_current_target m)) ->
    e_error e = None ->
    (4800 * Z.of_nat (size (cleared (original w) (st w'))) <=
     4800 * Z.of_nat (size (cleared (original w) (st w))) + e_refund_counter e)%Z.
  Proof.
    intros H Hs Ho Hc He.
    destruct (rule_message _ _ _ _ _ _ _ _ _ _ _ _ (refund_rule cr be te (original w))
      (conj (conj Ho Hc) eq_refl) H) as [_ (_ & HP & _)]. specialize (HP Hs). by rewrite He in HP.
  Qed.
End C16.


(** ** Storage ownership *)
Section C20.
  Context (cr : crypto) (be : block_env) (te : tx_env).
  Notation pm := (process_message cr be te).
  Notation pcm := (process_create_message cr be te).
  Notation visits := (visits cr be te).
  Notation invokes := (invokes cr be te).
  Notation step := (exec_step cr be te pm pcm).

  (** While the message is executed, a frame whose storage context is [a]
      executes SSTORE. *)
  Definition writes (m : message) (w : world) (a : address) : Prop :=
    exists e1 w1, visits m w e1 w1 /\ m_current_target (e_message e1) = a /\ at_op e1 SSTORE.
  (** While the message is executed, a frame creates the account [a]. *)
  Definition creates (m : message) (w : world) (a : address) : Prop :=
    exists e1 w1 m' w', visits m w e1 w1 /\ invokes e1 w1 m' w' /\
      m_target m' = None /\ m_current_target m' = a.

  Definition accounted (m : message) (w w' : world) (a : address) : Prop :=
    (forall k, get_storage (st w') a k = get_storage (st w) a k) \/
    writes m w a \/ creates m w a.

  (** A planned call or creation is an invocation. *)
  Lemma step_invokes e w e2 w2 :
    shape_ok e -> step (e, w) = inl (e2, w2) ->
    exists o, at_op e o /\
      (done_ok cr be te o e w (Ret tt e2 w2) \/
       (exists m' e1 os oz c w1, call_ok be o e w m' e1 os oz /\ invokes e w m' w /\
          pm m' w = PRet c w1 /\ resume_call e1 os oz c w1 = Ret tt e2 w2) \/
       (exists m' e1 wi wj c w1, create_ok cr be o e w m' e1 wi /\
          create_entry wi (m_current_target m') = Ok wj /\ invokes e w m' wj /\
          pcm m' wi = PRet c w1 /\ resume_create e1 c w1 = Ret tt e2 w2)).
  Proof.
    intros Hs He.
    destruct (exec_step_cases cr be te e w Hs) as [(_ & E)|[(h & E)|(o & p & Ho & Hp & E)]];
      rewrite E in He; [done|done|].
    pose (f (c : crash) (m' : message) (w' : world) := fun m1 w1 =>
      if decide ((m1, w1) = (m', w')) then PExc (ECrash c) w' else PExc EOutOfFuel w').
    assert (Hf : forall c1 c2 m' w' m1 w1, (m1, w1) <> (m', w') -> f c1 m' w' m1 w1 = f c2 m' w' m1 w1).
    { intros. unfold f. by rewrite !decide_False. }
    assert (Hf' : forall c m' w', f c m' w' m' w' = PExc (ECrash c) w').
    { intros. unfold f. by rewrite decide_True. }
    exists o. split; [done|]. destruct p as [r|m e1 os oz|m e1 w0]; cbn [interp plan_ok] in Hp, He.
    - destruct r as [[] ? ?|]; [|done]. injection He as -> ->. by left.
    - right; left. destruct (pm m w) as [c w1|] eqn:Er; [|done].
      destruct (resume_call e1 os oz c w1) as [[] ? ?|] eqn:Es; [|done].
      injection He as -> ->. exists m, e1, os, oz, c, w1.
      refine (conj Hp (conj _ (conj Er Es))).
      exists (f AssertionError m w), (f OverflowError m w). split; [intros; by apply Hf|].
      rewrite !E. cbn [interp]. rewrite !Hf'. done.
    - right; right.
      change (process_create_message_with pm) with pcm in He.
      destruct (pcm m w0) as [c w1|] eqn:Er; [|done].
      destruct (resume_create e1 c w1) as [[] ? ?|] eqn:Es; [|done].
      destruct (create_entry_ok w0 (m_current_target m)) as [wj Hwj].
      injection He as -> ->. exists m, e1, w0, wj, c, w1.
      refine (conj Hp (conj Hwj (conj _ (conj Er Es)))).
      exists (f AssertionError m wj), (f OverflowError m wj). split; [intros; by apply Hf|].
      rewrite !E. cbn [interp].
      revert Hwj. unfold create_entry, process_create_message_with. cbv zeta.
      destruct (increment_nonce _ _); [|done]. intros [= <-]. rewrite !Hf'. done.
  Qed.

  Lemma visits_child m w e1 w1 m' w' a : visits m w e1 w1 -> invokes e1 w1 m' w' ->
    writes m' w' a \/ creates m' w' a -> writes m w a \/ creates m w a.
  Proof.
    intros Hv Hi [(e2 & w2 & H1 & H2 & H3)|(e2 & w2 & m2 & w3 & H1 & H2 & H3 & H4)].
    - left. exists e2, w2. split; [|done]. by eapply V_call.
    - right. exists e2, w2, m2, w3. split; [|done]. by eapply V_call.
  Qed.

  Section Induct.
    Context (OG : storages) (a : address).
    Let R := refund_rule cr be te OG.
    Let Pre (m : message) (w : world) := owned_pre m w /\ original w = OG.
    Let I (m : message) (w0 : world) (e : evm) (w : world) := owned_inv w0 w /\
       (credit OG (st w) <= credit OG (st w0) + e_refund_counter e)%Z.

    Lemma step_accounted m w0 e w e2 w2 :
      (forall m' w' c w1, m_depth m' = m_depth m + 1 -> Pre m' w' ->
         pm m' w' = PRet c w1 -> accounted m' w' w1 a) ->
      Pre m w0 -> visits m w0 e w -> fstruct m w0 e w -> I m w0 e w ->
      step (e, w) = inl (e2, w2) -> accounted m w0 w a -> accounted m w0 w2 a.
    Proof.
      intros IH Hp Hv Hf HI Hst [Hs|Hs]; [|by right].
      assert (Hk : (forall k, get_storage (st w2) a k = get_storage (st w) a k) \/
        writes m w0 a \/ creates m w0 a -> accounted m w0 w2 a).
      { intros [H|H]; [left|by right]. intros k. by rewrite H. }
      apply Hk. clear Hk.
      assert (Hdep : m_depth (e_message e) = m_depth m) by (by rewrite (fs_msg _ _ _ _ Hf)).
      destruct (step_invokes _ _ _ _ (fs_shape _ _ _ _ Hf) Hst)
        as (o & Ha & [[_ He]|[(m' & e1 & os & oz & c & w1 & Hc & Hi & Hr & Hres)|
           (m' & e1 & wi & wj & c & w1 & Hc & Hen & Hi & Hr & Hres)]]).
      - destruct (effect_storage _ _ _ _ _ _ He (proj1 (proj1 HI))) as [_ [H|(k & v & -> & _ & H & _)]];
          [by left|].
        destruct (decide (m_current_target (e_message e) = a)) as [Heq|Hne].
        + right; left. by exists e, w.
        + left. intros j. rewrite (set_storage_get _ _ _ _ _ H a j). by rewrite decide_False by (by intros []).
      - destruct (r_call _ _ _ _ _ _ _ _ R _ _ _ _ _ _ _ _ _ Hp Hf HI Ha Hc) as [Hpre _].
        pose proof (wa_depth _ _ _ _ (co_wait _ _ _ _ _ _ _ _ Hc)) as Hd.
        destruct (IH m' w c w1) as [H|H]; [congruence|exact Hpre|exact Hr| |].
        + left. apply resume_call_sets in Hres as [-> _]. done.
        + right. by eapply visits_child.
      - destruct (r_create _ _ _ _ _ _ _ _ R _ _ _ _ _ _ _ _ Hp Hf HI Ha Hc) as [[Hoi HOi] _].
        pose proof (create_struct cr be te _ _ _ _ Hr) as Hps.
        destruct (cr_nonce _ _ _ _ _ _ _ _ Hc) as (s1 & Hn & Hwi).
        assert (Hsi : same_storage (st w) (st wi)).
        { subst wi. apply increment_nonce_same in Hn as [Hn _]. exact (Hn (proj1 (proj1 HI))). }
        apply resume_create_sets in Hres as [-> _].
        destruct (e_error c) as [x|] eqn:Ec.
        { left. destruct (ps_fail _ _ _ _ Hps x Ec) as [Hre _]. intros k.
          rewrite (get_storage_tries _ _ (re_sto _ _ Hre)). apply Hsi. }
        destruct (decide (m_current_target m' = a)) as [Heq|Hne].
        { right; right. exists e, w, m', wj. by rewrite (cr_target _ _ _ _ _ _ _ _ Hc). }
        pose proof (r_entry _ _ _ _ _ _ _ _ R _ _ _ (conj Hoi HOi) Hen) as Hprej.
        pose proof (wa_depth _ _ _ _ (cr_wait _ _ _ _ _ _ _ _ Hc)) as Hd.
        revert Hr. unfold process_create_message, process_create_message_with. cbv zeta.
        revert Hen Hprej Hi. unfold create_entry.
        destruct (increment_nonce (mark_account_created _ _) _) as [s3|] eqn:En; [|done].
        intros [= <-] Hprej Hi.
        assert (Hen : create_entry wi (m_current_target m') = Ok (set_st s3 (begin_transaction wi)))
          by (unfold create_entry; by rewrite En).
        destruct (pm m' _) as [e4 w4|] eqn:E4; [|done].
        destruct (e_error e4) as [x4|] eqn:Ex4.
        { destruct (rollback_transaction w4); [|done]. intros [= -> ->]. congruence. }
        destruct (deposit_code e4) as [[h|] e'] eqn:Edc.
        { destruct (rollback_transaction w4); [|done]. intros [= <- ->]. by destruct e'. }
        destruct (set_code _ _ _) as [s5|] eqn:E5; [|done].
        destruct (commit_transaction _) as [w6|] eqn:E6; [|done]. intros [= -> ->].
        destruct (rule_message _ _ _ _ _ _ _ _ _ _ _ _ R Hprej E4) as [_ (HP1 & _)].
        destruct (owned_cok _ _ _ _ _ _ _ Hen Hoi HP1 E5 E6) as [_ Hss].
        destruct (IH m' _ e4 w4 ltac:(congruence) Hprej E4) as [H|H].
        + left. intros k. rewrite Hss, H.
          destruct (create_entry_same _ _ _ Hen Hoi) as (_ & _ & _ & Hz & _).
          rewrite Hz, decide_False by done. apply Hsi.
        + right. by eapply visits_child.
    Qed.

    Lemma message_accounted n : forall m w e w',
      1025 - m_depth m <= N.of_nat n -> Pre m w -> pm m w = PRet e w' -> accounted m w w' a.
    Proof.
      induction n as [|n IH]; intros m w e w' Hn Hp Hr.
      { rewrite process_message_eq in Hr. destruct (N.ltb_spec 1024 (m_depth m)); [done|lia]. }
      pose proof (message_struct cr be te _ _ _ _ Hr) as Hps.
      destruct (e_error e) as [x|] eqn:Ee.
      { left. intros k. destruct (ps_fail _ _ _ _ Hps x Ee) as [Hre _].
        by rewrite (get_storage_tries _ _ (re_sto _ _ Hre)). }
      rewrite process_message_eq in Hr. destruct (N.ltb_spec 1024 (m_depth m)) as [|Hd]; [done|].
      unfold process_message_body in Hr.
      fold (transfer m (begin_transaction w)) in Hr.
      destruct (transfer m (begin_transaction w)) as [s1|] eqn:Et; [|done].
      pose proof (r_start _ _ _ _ _ _ _ _ R m w s1 Hp Hd Et) as HI1.
      pose proof (fstruct_init _ _ _ Et) as Hf1.
      pose proof (transfer_same _ _ _ Et) as [Ht _]. specialize (Ht (proj1 (proj1 Hp))).
      set (w1 := set_st s1 (begin_transaction w)) in *.
      assert (Hacc1 : accounted m w w1 a) by (left; intros k; apply Ht).
      destruct (execute_code cr be te pm pcm m w1) as [e2 w2|] eqn:Ex; [|done].
      assert (accounted m w w2 a).
      2:{ destruct (match e_error e2 with Some _ => _ | None => _ end) as [w3|] eqn:Ec; [|done].
          injection Hr as -> ->. rewrite Ee in Ec. apply commit_same in Ec as (_ & Ec & _).
          destruct H as [H|H]; [left|by right]. intros k.
          by rewrite (get_storage_tries _ _ Ec). }
      assert (Ee2 : e_error e2 = None).
      { destruct (match e_error e2 with Some _ => _ | None => _ end); [|done]. by injection Hr as -> _. }
      revert Ex. unfold execute_code.
      match goal with |- (match ?x with _ => _ end) = _ -> _ => destruct x as [p|] eqn:Ep end.
      - destruct (m_disable_precompiles m).
        { intros Hx. assert (w2 = w1) as -> by congruence. done. }
        apply bind_Some in Ep as (ca & _ & Ep).
        pose proof (pre_spec cr be te ca p (init_evm m) w1 Ep) as Hpr.
        destruct (p (init_evm m) w1) as [? e' w''|x e' w''].
        + intros [= <- <-]. destruct Hpr as (-> & _). done.
        + intros Hh. destruct Hpr as (-> & _). by destruct x; inversion Hh; subst.
      - destruct (exec_loop_run cr be te pm pcm (m_depth m)
          (fun m' w _ _ => process_message_run cr be te m' w)
          (fun m' w _ _ => process_create_run cr be te m' w)
          (init_evm m) w1 (init_shape m) eq_refl) as (k & [e3 w3] & ox & e4 & w4 & Hk & He & Hle & _).
        assert (exec_loop cr be te pm pcm (init_evm m) w1 = (ox, e4, w4)) as ->.
        { unfold exec_loop. rewrite (loop_pos_enough _ _ _ _ _ _ Hk He); [done|].
          unfold mu in Hle. cbn in Hle |- *. lia. }
        assert (Hloop : visits m w e3 w3 /\ fstruct m w e3 w3 /\ I m w e3 w3 /\ accounted m w w3 a).
        { assert (H0 : visits m w (init_evm m) w1 /\ fstruct m w (init_evm m) w1 /\
            I m w (init_evm m) w1 /\ accounted m w w1 a).
          { refine (conj _ (conj Hf1 (conj HI1 Hacc1))). by apply V_start. }
          clear -Hk H0 Hp IH Hn Hd R. revert Hk H0. generalize (init_evm m), w1. clear w1. intros e w1 Hk H0.
          remember (e, w1) as s eqn:Es. remember (e3, w3) as s' eqn:Es'.
          revert e w1 H0 Es. induction Hk as [s|k s si s2 Hs Hk IHk]; intros e w1 H0 Es.
          - rewrite Es' in Es. by injection Es as <- <-.
          - subst s. destruct si as [e' w1']. destruct H0 as (H1 & H2 & H3 & H4).
            apply (IHk Es' e' w1'); [|done].
            destruct (rule_step _ _ _ _ _ _ _ _ _ _ _ _ _ _ R Hp H2 H3 Hs) as [H5 H6].
            refine (conj _ (conj H5 (conj H6 _))); [by eapply V_step|].
            eapply step_accounted; eauto.
            intros m' w' c w2 Hm' Hp' Hr'. eapply IH; [|exact Hp'|exact Hr']. lia. }
        destruct Hloop as (_ & Hf3 & _ & Hacc3).
        destruct (exec_step_cases cr be te e3 w3 (fs_shape _ _ _ _ Hf3))
          as [(_ & E)|[(h & E)|(o & p & Ho & Hpl & E)]]; rewrite E in He.
        + injection He as <- <- <-. intros [= <- <-]. done.
        + injection He as <- <- <-. cbn. intros [= <- <-]. by destruct e3.
        + destruct (interp _ _ _ _) as [|x e' w'']; [done|]. injection He as <- <- <-.
          intros Hh. destruct x; cbn in Hh; try done; injection Hh as <- <-; by destruct e'.
    Qed.
  End Induct.

  (** C20.  If a storage slot of [a] differs after a message call, then while
      the message was executed a frame with storage context [a] executed an
      SSTORE, or a frame created the account [a]. *)
  Theorem C20_storage_owner m w e w' a k :
    pm m w = PRet e w' -> owned (st w) ->
    (m_code m <> [] -> solid (st w) (m_current_target m)) ->
    get_storage (st w') a k <> get_storage (st w) a k ->
    (exists e1 w1, visits m w e1 w1 /\ m_current_target (e_message e1) = a /\ at_op e1 SSTORE) \/
    (exists e1 w1 m' w1', visits m w e1 w1 /\ invokes e1 w1 m' w1' /\
       m_target m' = None /\ m_current_target m' = a).
  Proof.
    intros H Ho Hs Hne.
    destruct (message_accounted (original w) a (N.to_nat (1025 - m_depth m)) m w e w') as [Hk|Hk];
      [lia|by split|done| |exact Hk].
    by rewrite Hk in Hne.
  Qed.
End C20.

(** ** Examples *)
(** SSTORE(1, 0); SSTORE(1, 9); SSTORE(2, 0), in an account whose slots 1 and
    2 hold 9: the counter goes to 4800, back to 0, up to 2800 and to 7600. *)
Definition code_refund : bytes := bs
  [0x60;0; 0x60;1; 0x55; 0x60;9; 0x60;1; 0x55; 0x60;0; 0x60;2; 0x55].
Definition refund_world : world :=
  World (toy_state [(0x200, Account 1 0 code_refund); (0xaa, Account 0 100 [])]
    {[0x200 := {[1 := 9; 2 := 9]}]}) empty_transient.
Lemma refund_world_owned : owned (st refund_world).
Proof.
  intros a k H. destruct (decide (a = 0x200)) as [->|Hne]; [left; vm_compute; discriminate|].
  exfalso. apply H. unfold get_storage. cbn [st refund_world toy_state storage_tries].
  by rewrite lookup_singleton_ne by congruence.
Qed.
Example C16_nonvacuous :
  let m := toy_message 0x200 1000000 0 [] code_refund in
  snapshots (st refund_world) = [] /\ owned (st refund_world) /\
  solid (st refund_world) 0x200 /\
  match toy_run m refund_world with
  | PRet e w' => e_error e = None /\ e_refund_counter e = 7600%Z
  | PExc _ _ => False
  end.
Proof.
  intros m. split; [reflexivity|]. split; [exact refund_world_owned|].
  split; [left; vm_compute; discriminate|].
  vm_compute. split; reflexivity.
Qed.

(** 0x200 calls 0x300, which writes its own slot 1. *)
Definition owner_world : world :=
  toy_world [(0x200, Account 1 50 code_parent); (0x300, Account 1 0 code_succeeds);
    (0xaa, Account 0 100 [])] ∅.
Example C20_nonvacuous :
  let m := toy_message 0x200 1000000 0 [] code_parent in
  owned (st owner_world) /\ solid (st owner_world) 0x200 /\
  match toy_run m owner_world with
  | PRet e w' => get_storage (st w') 0x300 1 = 9 /\ get_storage (st owner_world) 0x300 1 = 0 /\
      get_storage (st w') 0x200 1 = 5
  | PExc _ _ => False
  end.
Proof.
  intros m. split; [intros a k H; exfalso; by apply H|].
  split; [left; vm_compute; discriminate|]. vm_compute. repeat split.
Qed.

Definition PropRefund_theorems :=
  (@C16_refund_counter, @C16_refund_create, @C16_nested, @C20_storage_owner).
Print Assumptions PropRefund_theorems.
