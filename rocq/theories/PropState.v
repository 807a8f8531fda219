(** * PropState: properties C01-C04 (state layer).

    Vocabulary: [StateSpec.v] ([prog], [run], [same_reads], [same_snapshots],
    [total_balance], [clean_world]). *)
From Verif Require Import Base State StateSpec StateProofs.

(** A concrete world used for the non-vacuity examples: two funded accounts,
    one with code and storage. *)
Definition ex_state : state :=
  State {[ 1 := Account 5 100 []; 2 := Account 1 7 [Byte.x60] ]}
        {[ 2 := {[ 9 := 42 ]} ]} [] ∅.
Definition ex_world : world := World ex_state empty_transient.

(** ** C01 *)

(** Whatever a program over the state API did inside a transaction (including
    nested transactions that were committed or rolled back), rolling back
    gives every account, storage slot and transient slot its old value and
    leaves the enclosing transactions open as they were. *)
Theorem C01_rollback_restores : forall p w w1 w2,
  run p (begin_transaction w) = Ok w1 ->
  rollback_transaction w1 = Ok w2 ->
  same_reads w w2 /\ same_snapshots w w2.
Proof. exact rollback_restores_lemma. Qed.

(** Rollback (and commit) are always possible there. *)
Theorem C01_rollback_total : forall p w w1,
  run p (begin_transaction w) = Ok w1 ->
  exists w2 w3, rollback_transaction w1 = Ok w2 /\ commit_transaction w1 = Ok w3.
Proof. exact rollback_never_fails_lemma. Qed.

(** The program of the example changes balances, code, storage and transient
    storage, with a nested commit and a nested rollback. *)
Definition ex_prog : prog :=
  PSeq (POp (OpMoveEther 1 2 30))
  (PSeq (PCommitted (PSeq (POp (OpSetStorage 2 9 0)) (POp (OpSetStorage 2 10 1))))
  (PSeq (PRolledBack (POp (OpDestroyAccount 2)))
  (PSeq (POp (OpSetCode 1 [Byte.x00])) (POp (OpSetTransient 1 3 4))))).

Example C01_nonvacuous :
  match run ex_prog (begin_transaction ex_world) with
  | Ok w1 =>
      match rollback_transaction w1 with
      | Ok w2 =>
          get_storage (st w1) 2 10 = 1 /\ get_storage (st w2) 2 10 = 0 /\
          balance (get_account (st w1) 2) = 37 /\
          balance (get_account (st w2) 2) = 7
      | Raise _ => False
      end
  | Raise _ => False
  end.
Proof. vm_compute. repeat split. Qed.

(** ** C02 *)

(** Committing changes nothing that can be read. *)
Theorem C02_commit_keeps : forall w w',
  commit_transaction w = Ok w' -> same_reads w w'.
Proof. exact commit_keeps_lemma. Qed.

(** Changes made in a committed inner transaction are still undone by the
    rollback of the enclosing one. *)
Theorem C02_outer_rollback_undoes_committed : forall before inner after w w1 w2,
  run (PSeq before (PSeq (PCommitted inner) after)) (begin_transaction w) = Ok w1 ->
  rollback_transaction w1 = Ok w2 ->
  same_reads w w2 /\ same_snapshots w w2.
Proof. intros b i a. exact (rollback_restores_lemma _). Qed.

Example C02_nonvacuous :
  match run (PSeq PSkip (PSeq (PCommitted (POp (OpSetStorage 2 9 77))) PSkip))
          (begin_transaction ex_world) with
  | Ok w1 =>
      match commit_transaction w1, rollback_transaction w1 with
      | Ok w2, Ok w3 => get_storage (st w2) 2 9 = 77 /\ get_storage (st w3) 2 9 = 42
      | _, _ => False
      end
  | Raise _ => False
  end.
Proof. vm_compute. repeat split. Qed.

(** ** C03 *)

Theorem C03_set_account : forall s a v b,
  get_account_optional (set_account s a v) b
    = (if decide (a = b) then v else get_account_optional s b) /\
  (forall k, get_storage (set_account s a v) b k = get_storage s b k).
Proof. intros. split; [apply get_account_optional_set|done]. Qed.

Theorem C03_set_storage : forall s a k v s',
  set_storage s a k v = Ok s' ->
  (forall b k', get_storage s' b k'
     = if decide (a = b /\ k = k') then v else get_storage s b k') /\
  (forall b, get_account_optional s' b = get_account_optional s b).
Proof.
  intros s a k v s' H. apply set_storage_inv in H as [_ ->]. split; [|done].
  intros b k'. rewrite !get_storage_slot. apply slot_of_set.
Qed.

(** set_storage only refuses to write to an account that does not exist. *)
Theorem C03_set_storage_defined : forall s a k v,
  (exists s', set_storage s a k v = Ok s') <-> account_exists s a = true.
Proof.
  intros. unfold set_storage, account_exists, get_account_optional.
  destruct (main_trie s !! a); [destruct (decide _)|].
  all: split; intros; try done; eauto. by destruct H.
Qed.

Theorem C03_set_transient_storage : forall t a k v b k',
  get_transient_storage (set_transient_storage t a k v) b k'
  = if decide (a = b /\ k = k') then v else get_transient_storage t b k'.
Proof. intros. rewrite set_transient_unfold. apply slot_of_set. Qed.

Theorem C03_destroy_storage : forall s a,
  (forall k, get_storage (destroy_storage s a) a k = 0) /\
  account_has_storage (destroy_storage s a) a = false /\
  (forall b k, b <> a -> get_storage (destroy_storage s a) b k = get_storage s b k) /\
  (forall b, get_account_optional (destroy_storage s a) b = get_account_optional s b).
Proof.
  intros. unfold get_storage, account_has_storage, get_account_optional.
  rewrite destroy_storage_storages, destroy_storage_main, lookup_delete.
  repeat split; try done. intros. by rewrite lookup_delete_ne.
Qed.

Theorem C03_destroy_account : forall s a,
  get_account_optional (destroy_account s a) a = None /\
  (forall k, get_storage (destroy_account s a) a k = 0) /\
  (forall b, b <> a ->
     get_account_optional (destroy_account s a) b = get_account_optional s b /\
     forall k, get_storage (destroy_account s a) b k = get_storage s b k).
Proof.
  intros. unfold destroy_account, get_storage.
  rewrite get_account_optional_set, set_account_storages, destroy_storage_storages, lookup_delete.
  rewrite decide_True by done. split; [done|split; [done|]].
  intros b Hb. rewrite get_account_optional_set, decide_False, lookup_delete_ne by congruence.
  unfold get_account_optional. by rewrite destroy_storage_main.
Qed.

(** In a state reached from a clean one by any program, storage that reads as
    all zero is no storage at all. *)
Theorem C03_no_zero_residue : forall p w w' a,
  clean_world w -> run p w = Ok w' ->
  (forall k, get_storage (st w') a k = 0) ->
  account_has_storage (st w') a = false.
Proof.
  intros p w w' a Hc Hr Hz.
  pose proof (clean_run p w w' Hr Hc) as ((Hs & _) & _).
  unfold account_has_storage.
  rewrite (clean_has_storage _ _ Hs Hz). done.
Qed.

Example C03_nonvacuous : clean_world (World empty_state empty_transient) /\
  match run (PSeq (POp (OpSetAccount 3 (Some (Account 1 0 []))))
               (PSeq (POp (OpSetStorage 3 1 5)) (POp (OpSetStorage 3 1 0))))
          (World empty_state empty_transient) with
  | Ok w1 => account_exists (st w1) 3 = true /\ account_has_storage (st w1) 3 = false
  | Raise _ => False
  end.
Proof.
  split.
  - repeat split; simpl; try done; intros ? ?; rewrite lookup_empty; done.
  - vm_compute. repeat split.
Qed.

(** ** C04 *)

(** A transfer that happens conserves the sum of all balances, moves exactly
    the amount, and touches nothing else. *)
Theorem C04_move_ether_conserves : forall s sender recipient amount s',
  move_ether s sender recipient amount = Ok s' ->
  total_balance s' = total_balance s /\
  amount <= balance (get_account s sender) /\
  (sender <> recipient ->
     balance (get_account s' sender) = balance (get_account s sender) - amount /\
     balance (get_account s' recipient) = balance (get_account s recipient) + amount) /\
  (sender = recipient ->
     balance (get_account s' sender) = balance (get_account s sender)) /\
  (forall c, nonce (get_account s' c) = nonce (get_account s c) /\
             code (get_account s' c) = code (get_account s c)) /\
  (forall c, c <> sender -> c <> recipient -> get_account s' c = get_account s c).
Proof.
  intros s a b n s' H.
  pose proof (move_ether_total _ _ _ _ _ H) as Ht.
  pose proof (move_ether_get _ _ _ _ _ H) as Hg.
  apply move_ether_inv in H as (s1 & Hle & _).
  split; [done|]. split; [done|]. split; [|split; [|split]].
  - intros Hne. rewrite (Hg a), (Hg b).
    rewrite !(decide_False (P := a = b)) by done.
    rewrite (decide_True (P := a = a)) by done.
    rewrite (decide_False (P := b = a)) by congruence.
    rewrite (decide_True (P := b = b)) by done. done.
  - intros ->. rewrite Hg. by rewrite decide_True.
  - intros c. rewrite Hg.
    destruct (decide (a = b)); [done|]. destruct (decide (c = a)) as [->|]; [done|].
    destruct (decide (c = b)) as [->|]; done.
  - intros c Hca Hcb. rewrite Hg.
    destruct (decide (a = b)); [done|].
    rewrite decide_False by done. by rewrite decide_False.
Qed.

(** It happens exactly when the sender has the funds (the supply being below
    2^256), and otherwise raises AssertionError. *)
Theorem C04_move_ether_defined : forall s sender recipient amount,
  total_balance s < 2 ^ 256 ->
  (amount <= balance (get_account s sender) ->
     exists s', move_ether s sender recipient amount = Ok s') /\
  (balance (get_account s sender) < amount ->
     move_ether s sender recipient amount = Raise AssertionError).
Proof.
  intros s a b n Htot. split; intros H.
  - unfold move_ether.
    assert (Hf1 : reduce_sender_balance n (get_account s a)
      = Ok (Account (nonce (get_account s a)) (balance (get_account s a) - n) (code (get_account s a)))).
    { unfold reduce_sender_balance. destruct (N.ltb_spec (balance (get_account s a)) n); [lia|done]. }
    destruct (modify_state_ok _ _ _ _ Hf1) as [s1 H1]. rewrite H1.
    pose proof (modify_state_total _ _ _ _ _ H1 Hf1) as Ht1. simpl in Ht1.
    pose proof (balance_le_total s1 b) as Hb.
    eapply modify_state_ok. unfold increase_recipient_balance.
    destruct (N.ltb_spec (balance (get_account s1 b) + n) U256_CEIL); [done|].
    unfold U256_CEIL in *. lia.
  - unfold move_ether, modify_state, reduce_sender_balance.
    destruct (N.ltb_spec (balance (get_account s a)) n); [done|lia].
Qed.

Example C04_nonvacuous :
  total_balance ex_state < 2 ^ 256 /\
  match move_ether ex_state 1 2 100 with
  | Ok s' => get_account_optional s' 1 = Some (Account 5 0 []) /\
             balance (get_account s' 2) = 107
  | Raise _ => False
  end /\
  move_ether ex_state 1 2 101 = Raise AssertionError.
Proof. vm_compute. repeat split. Qed.


Print Assumptions C01_rollback_restores.
Print Assumptions C01_rollback_total.
Print Assumptions C02_commit_keeps.
Print Assumptions C02_outer_rollback_undoes_committed.
Print Assumptions C03_set_account.
Print Assumptions C03_set_storage.
Print Assumptions C03_set_storage_defined.
Print Assumptions C03_set_transient_storage.
Print Assumptions C03_destroy_storage.
Print Assumptions C03_destroy_account.
Print Assumptions C03_no_zero_residue.
Print Assumptions C04_move_ether_conserves.
Print Assumptions C04_move_ether_defined.
