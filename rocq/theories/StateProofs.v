(** * StateProofs: lemmas about the state layer. *)
From Verif Require Import Base State StateSpec.

Global Arguments N.add : simpl never.
Global Arguments N.sub : simpl never.
Global Arguments N.mul : simpl never.
Global Arguments N.pow : simpl never.

(** ** Sums over maps *)
Section Msum.
  Context {K A : Type} `{Countable K}.
  Implicit Types (m : gmap K A) (f : K -> A -> N).

  Lemma msum_empty f : msum f ∅ = 0.
  Proof. unfold msum. by rewrite map_fold_empty. Qed.

  Lemma msum_insert f m k x :
    m !! k = None -> msum f (<[k := x]> m) = f k x + msum f m.
  Proof.
    intros Hk. unfold msum.
    rewrite (map_fold_insert_L (fun k x n => f k x + n)); [reflexivity| |done].
    intros. lia.
  Qed.

  Lemma msum_delete f m k x :
    m !! k = Some x -> msum f m = f k x + msum f (delete k m).
  Proof.
    intros Hk. rewrite <- (insert_delete m k x) at 1 by done.
    apply msum_insert. apply lookup_delete.
  Qed.

  Definition fopt f k (o : option A) : N :=
    match o with Some x => f k x | None => 0 end.

  Lemma msum_delete_opt f m k :
    msum f m = fopt f k (m !! k) + msum f (delete k m).
  Proof.
    destruct (m !! k) eqn:E; simpl.
    - by apply msum_delete.
    - by rewrite delete_notin.
  Qed.

  Lemma msum_insert_opt f m k x :
    msum f (<[k := x]> m) + fopt f k (m !! k) = msum f m + f k x.
  Proof.
    rewrite <- insert_delete_insert.
    rewrite msum_insert by apply lookup_delete.
    rewrite (msum_delete_opt f m k). lia.
  Qed.

  Lemma msum_le_lookup f m k x : m !! k = Some x -> f k x <= msum f m.
  Proof. intros Hk. rewrite (msum_delete f m k x) by done. lia. Qed.

  Lemma msum_ext f g m :
    (forall k x, m !! k = Some x -> f k x = g k x) -> msum f m = msum g m.
  Proof.
    induction m as [|k x m Hk IH] using map_ind; intros Hext.
    - by rewrite !msum_empty.
    - rewrite !msum_insert by done. rewrite IH, (Hext k x).
      + done.
      + apply lookup_insert.
      + intros k' x' Hk'. apply Hext. rewrite lookup_insert_ne; congruence.
  Qed.

  Lemma msum_mono f g m :
    (forall k x, m !! k = Some x -> f k x <= g k x) -> msum f m <= msum g m.
  Proof.
    induction m as [|k x m Hk IH] using map_ind; intros Hext.
    - rewrite !msum_empty; lia.
    - rewrite !msum_insert by done.
      assert (f k x <= g k x) by (apply Hext; apply lookup_insert).
      assert (msum f m <= msum g m); [|lia].
      apply IH. intros k' x' Hk'. apply Hext. rewrite lookup_insert_ne; congruence.
  Qed.

  Lemma msum_two f m k1 k2 x1 x2 :
    k1 <> k2 -> m !! k1 = Some x1 -> m !! k2 = Some x2 ->
    f k1 x1 + f k2 x2 <= msum f m.
  Proof.
    intros Hne H1 H2.
    rewrite (msum_delete f m k1 x1) by done.
    assert (delete k1 m !! k2 = Some x2) by (by rewrite lookup_delete_ne).
    pose proof (msum_le_lookup f (delete k1 m) k2 x2 H0). lia.
  Qed.
End Msum.

(** ** Balances *)

Definition bal_opt (o : option account) : N :=
  match o with Some a => balance a | None => 0 end.

Lemma bal_opt_get s a : bal_opt (main_trie s !! a) = balance (get_account s a).
Proof. unfold get_account, get_account_optional. by destruct (main_trie s !! a). Qed.

Lemma total_set_account s a v :
  total_balance (set_account s a v) + balance (get_account s a)
  = total_balance s + bal_opt v.
Proof.
  rewrite <- bal_opt_get. unfold total_balance, set_account, set_main, account_trie_set; simpl.
  set (f := fun (_ : address) acc => balance acc).
  destruct v as [acc|]; simpl.
  - pose proof (msum_insert_opt f (main_trie s) a acc) as E.
    revert E. unfold fopt, bal_opt. destruct (main_trie s !! a); subst f; simpl; intros; lia.
  - pose proof (msum_delete_opt f (main_trie s) a) as E.
    revert E. unfold fopt, bal_opt. destruct (main_trie s !! a); subst f; simpl; intros; lia.
Qed.

Lemma balance_le_total s a : balance (get_account s a) <= total_balance s.
Proof.
  unfold get_account, get_account_optional, total_balance.
  destruct (main_trie s !! a) as [acc|] eqn:E; simpl; [|lia].
  apply (msum_le_lookup (fun _ acc => balance acc) (main_trie s) a acc E).
Qed.

Lemma balance_two_le_total s a b : a <> b ->
  balance (get_account s a) + balance (get_account s b) <= total_balance s.
Proof.
  intros Hne.
  pose proof (balance_le_total s a) as Ha. pose proof (balance_le_total s b) as Hb.
  rewrite <- !bal_opt_get in *.
  destruct (main_trie s !! a) as [x|] eqn:Ea, (main_trie s !! b) as [y|] eqn:Eb; simpl in *.
  - apply (msum_two (fun _ acc => balance acc) (main_trie s) a b x y); done.
  - lia.
  - lia.
  - lia.
Qed.

(** ** Field lemmas *)
Lemma set_account_storages s a v : storage_tries (set_account s a v) = storage_tries s.
Proof. done. Qed.
Lemma set_account_snapshots s a v : snapshots (set_account s a v) = snapshots s.
Proof. done. Qed.
Lemma set_account_created s a v : created_accounts (set_account s a v) = created_accounts s.
Proof. done. Qed.
Lemma destroy_storage_main s a : main_trie (destroy_storage s a) = main_trie s.
Proof. unfold destroy_storage. by destruct (storage_tries s !! a). Qed.
Lemma destroy_storage_snapshots s a : snapshots (destroy_storage s a) = snapshots s.
Proof. unfold destroy_storage. by destruct (storage_tries s !! a). Qed.
Lemma destroy_storage_created s a : created_accounts (destroy_storage s a) = created_accounts s.
Proof. unfold destroy_storage. by destruct (storage_tries s !! a). Qed.
Lemma destroy_storage_storages s a :
  storage_tries (destroy_storage s a) = delete a (storage_tries s).
Proof.
  unfold destroy_storage. destruct (storage_tries s !! a) eqn:E; [done|].
  by rewrite delete_notin.
Qed.

Lemma get_account_set s a v b :
  get_account (set_account s a v) b
  = if decide (a = b) then match v with Some x => x | None => EMPTY_ACCOUNT end
    else get_account s b.
Proof.
  unfold get_account, get_account_optional, set_account, set_main, account_trie_set; simpl.
  destruct (decide (a = b)) as [->|Hne], v; simpl;
    rewrite ?lookup_insert, ?lookup_delete, ?lookup_insert_ne, ?lookup_delete_ne; done.
Qed.

Lemma get_account_optional_set s a v b :
  get_account_optional (set_account s a v) b
  = if decide (a = b) then v else get_account_optional s b.
Proof.
  unfold get_account_optional, set_account, set_main, account_trie_set; simpl.
  destruct (decide (a = b)) as [->|Hne], v; simpl;
    rewrite ?lookup_insert, ?lookup_delete, ?lookup_insert_ne, ?lookup_delete_ne; done.
Qed.

Lemma get_account_main s s' : main_trie s = main_trie s' ->
  forall a, get_account s a = get_account s' a.
Proof. intros E a. unfold get_account, get_account_optional. by rewrite E. Qed.

(** What [modify_state] does to accounts: exactly [f], with an empty result
    deleting the account and its storage. *)
Definition account_is_empty (acc : account) : bool :=
  (nonce acc =? 0) && bytes_eqb (code acc) [] && (balance acc =? 0).

Lemma account_is_empty_spec acc : account_is_empty acc = true <-> acc = EMPTY_ACCOUNT.
Proof.
  unfold account_is_empty, bytes_eqb, EMPTY_ACCOUNT. destruct acc as [n b c]; simpl.
  rewrite !andb_true_iff, !N.eqb_eq, bool_decide_eq_true. split.
  - intros [[-> ->] ->]. done.
  - intros [= -> -> ->]. done.
Qed.

Lemma modify_state_inv s a f s' :
  modify_state s a f = Ok s' ->
  exists acc, f (get_account s a) = Ok acc /\
    ((acc <> EMPTY_ACCOUNT /\ s' = set_account s a (Some acc)) \/
     (acc = EMPTY_ACCOUNT /\ s' = destroy_account (set_account s a (Some acc)) a)).
Proof.
  unfold modify_state. destruct (f (get_account s a)) as [acc|c] eqn:E; [|done].
  intros [= <-]. exists acc. split; [done|].
  unfold account_exists_and_is_empty. rewrite get_account_optional_set.
  rewrite decide_True by done.
  change ((nonce acc =? 0) && bytes_eqb (code acc) [] && (balance acc =? 0))
    with (account_is_empty acc).
  destruct (account_is_empty acc) eqn:Ee.
  - right. apply account_is_empty_spec in Ee. done.
  - left. split; [|done]. intros ->. done.
Qed.

Lemma modify_state_ok s a f acc :
  f (get_account s a) = Ok acc -> exists s', modify_state s a f = Ok s'.
Proof. intros E. unfold modify_state. rewrite E. eauto. Qed.

Lemma modify_state_get s a f s' acc :
  modify_state s a f = Ok s' -> f (get_account s a) = Ok acc ->
  forall b, get_account s' b = if decide (a = b) then acc else get_account s b.
Proof.
  intros H Hf b. apply modify_state_inv in H as (acc' & Hf' & [[Hne ->]|[-> ->]]).
  - rewrite get_account_set. assert (acc' = acc) by congruence. subst. done.
  - unfold destroy_account. rewrite get_account_set.
    assert (EMPTY_ACCOUNT = acc) by congruence. subst.
    destruct (decide (a = b)); [done|].
    erewrite get_account_main; [|apply destroy_storage_main].
    rewrite get_account_set. by rewrite decide_False.
Qed.

Lemma modify_state_storages s a f s' :
  modify_state s a f = Ok s' ->
  storage_tries s' = storage_tries s \/
  (get_account_optional s' a = None /\ f (get_account s a) = Ok EMPTY_ACCOUNT
   /\ storage_tries s' = delete a (storage_tries s)).
Proof.
  intros H. apply modify_state_inv in H as (acc & Hf & [[Hne ->]|[-> ->]]).
  - by left.
  - right. split; [|split]; [|done|].
    + unfold destroy_account. rewrite get_account_optional_set. by rewrite decide_True.
    + unfold destroy_account. rewrite set_account_storages, destroy_storage_storages.
      by rewrite set_account_storages.
Qed.

Lemma modify_state_snapshots s a f s' :
  modify_state s a f = Ok s' -> snapshots s' = snapshots s.
Proof.
  intros H. apply modify_state_inv in H as (acc & Hf & [[Hne ->]|[-> ->]]); [done|].
  unfold destroy_account. rewrite set_account_snapshots, destroy_storage_snapshots. done.
Qed.

Lemma modify_state_created s a f s' :
  modify_state s a f = Ok s' -> created_accounts s' = created_accounts s.
Proof.
  intros H. apply modify_state_inv in H as (acc & Hf & [[Hne ->]|[-> ->]]); [done|].
  unfold destroy_account. rewrite set_account_created, destroy_storage_created. done.
Qed.

Lemma total_destroy_storage s a : total_balance (destroy_storage s a) = total_balance s.
Proof. unfold total_balance. by rewrite destroy_storage_main. Qed.

Lemma modify_state_total s a f s' acc :
  modify_state s a f = Ok s' -> f (get_account s a) = Ok acc ->
  total_balance s' + balance (get_account s a) = total_balance s + balance acc.
Proof.
  intros H Hf. apply modify_state_inv in H as (acc' & Hf' & HH).
  assert (acc' = acc) by congruence; subst acc'.
  destruct HH as [[Hne ->]|[-> ->]].
  - pose proof (total_set_account s a (Some acc)). simpl in *. lia.
  - unfold destroy_account.
    pose proof (total_set_account (destroy_storage (set_account s a (Some EMPTY_ACCOUNT)) a) a None) as E1.
    pose proof (total_set_account s a (Some EMPTY_ACCOUNT)) as E2.
    rewrite total_destroy_storage in E1.
    assert (get_account (destroy_storage (set_account s a (Some EMPTY_ACCOUNT)) a) a = EMPTY_ACCOUNT) as E3.
    { erewrite get_account_main; [|apply destroy_storage_main].
      rewrite get_account_set. by rewrite decide_True. }
    rewrite E3 in E1. simpl in *. lia.
Qed.

(** ** move_ether *)
Lemma move_ether_inv s a b n s' :
  move_ether s a b n = Ok s' ->
  exists s1,
    n <= balance (get_account s a) /\
    modify_state s a (reduce_sender_balance n) = Ok s1 /\
    modify_state s1 b (increase_recipient_balance n) = Ok s' /\
    balance (get_account s1 b) + n < U256_CEIL.
Proof.
  unfold move_ether. destruct (modify_state s a _) as [s1|] eqn:E1; [|done].
  intros E2. exists s1.
  pose proof E1 as E1'. apply modify_state_inv in E1' as (acc & Hf & _).
  pose proof E2 as E2'. apply modify_state_inv in E2' as (acc2 & Hf2 & _).
  unfold reduce_sender_balance in Hf. unfold increase_recipient_balance in Hf2.
  destruct (N.ltb_spec (balance (get_account s a)) n); [done|].
  destruct (N.ltb_spec (balance (get_account s1 b) + n) U256_CEIL); done.
Qed.

Lemma move_ether_total s a b n s' :
  move_ether s a b n = Ok s' -> total_balance s' = total_balance s.
Proof.
  intros H. apply move_ether_inv in H as (s1 & Hle & H1 & H2 & Hlt).
  assert (Hf1 : reduce_sender_balance n (get_account s a)
    = Ok (Account (nonce (get_account s a)) (balance (get_account s a) - n) (code (get_account s a)))).
  { unfold reduce_sender_balance. destruct (N.ltb_spec (balance (get_account s a)) n); [lia|done]. }
  assert (Hf2 : increase_recipient_balance n (get_account s1 b)
    = Ok (Account (nonce (get_account s1 b)) (balance (get_account s1 b) + n) (code (get_account s1 b)))).
  { unfold increase_recipient_balance. destruct (N.ltb_spec (balance (get_account s1 b) + n) U256_CEIL); [done|lia]. }
  pose proof (modify_state_total _ _ _ _ _ H1 Hf1).
  pose proof (modify_state_total _ _ _ _ _ H2 Hf2). simpl in *. lia.
Qed.

(** Accounts after a transfer. *)
Lemma move_ether_get s a b n s' :
  move_ether s a b n = Ok s' ->
  forall c, get_account s' c =
    if decide (a = b) then get_account s c
    else if decide (c = a) then
      Account (nonce (get_account s a)) (balance (get_account s a) - n) (code (get_account s a))
    else if decide (c = b) then
      Account (nonce (get_account s b)) (balance (get_account s b) + n) (code (get_account s b))
    else get_account s c.
Proof.
  intros H c. apply move_ether_inv in H as (s1 & Hle & H1 & H2 & Hlt).
  assert (Hf1 : reduce_sender_balance n (get_account s a)
    = Ok (Account (nonce (get_account s a)) (balance (get_account s a) - n) (code (get_account s a)))).
  { unfold reduce_sender_balance. destruct (N.ltb_spec (balance (get_account s a)) n); [lia|done]. }
  assert (Hf2 : increase_recipient_balance n (get_account s1 b)
    = Ok (Account (nonce (get_account s1 b)) (balance (get_account s1 b) + n) (code (get_account s1 b)))).
  { unfold increase_recipient_balance. destruct (N.ltb_spec (balance (get_account s1 b) + n) U256_CEIL); [done|lia]. }
  pose proof (modify_state_get _ _ _ _ _ H1 Hf1) as G1.
  pose proof (modify_state_get _ _ _ _ _ H2 Hf2) as G2.
  rewrite G2, (G1 c). pose proof (G1 b) as Gb. clear G1 G2 H1 H2 Hf1 Hf2.
  rewrite Gb. rewrite Gb in Hlt. clear Gb.
  destruct (decide (a = b)) as [->|Hab].
  - simpl in *.
    destruct (decide (b = c)) as [<-|]; [|done].
    destruct (get_account s b) as [nn bb cc]; simpl in *. f_equal. lia.
  - destruct (decide (c = a)) as [->|].
    + rewrite (decide_False (P := b = a)) by congruence. by rewrite decide_True.
    + destruct (decide (c = b)) as [->|].
      * by rewrite decide_True.
      * rewrite !decide_False by congruence. done.
Qed.

Lemma move_ether_storages_sub s a b n s' :
  move_ether s a b n = Ok s' ->
  snapshots s' = snapshots s /\ created_accounts s' = created_accounts s.
Proof.
  intros H. apply move_ether_inv in H as (s1 & Hle & H1 & H2 & Hlt).
  split.
  - rewrite (modify_state_snapshots _ _ _ _ H2). apply (modify_state_snapshots _ _ _ _ H1).
  - rewrite (modify_state_created _ _ _ _ H2). apply (modify_state_created _ _ _ _ H1).
Qed.

(** ** Storage *)
Lemma slot_get_set t k v k' :
  slot_trie_get (slot_trie_set t k v) k' = if decide (k = k') then v else slot_trie_get t k'.
Proof.
  unfold slot_trie_get, slot_trie_set.
  destruct (N.eqb_spec v 0) as [->|Hv], (decide (k = k')) as [->|Hk];
    rewrite ?lookup_delete, ?lookup_insert, ?lookup_delete_ne, ?lookup_insert_ne; done.
Qed.

(** A storage map entry read as a function. *)
Definition slot_of (m : storages) (a k : N) : N :=
  match m !! a with None => 0 | Some t => slot_trie_get t k end.

Lemma get_storage_slot s a k : get_storage s a k = slot_of (storage_tries s) a k.
Proof. done. Qed.

Definition storages_set (m : storages) (a k v : N) : storages :=
  let t := slot_trie_set (default ∅ (m !! a)) k v in
  if decide (t = ∅) then delete a m else <[a := t]> m.

Lemma slot_of_set m a k v b k' :
  slot_of (storages_set m a k v) b k'
  = if decide (a = b /\ k = k') then v else slot_of m b k'.
Proof.
  unfold storages_set, slot_of. set (t := slot_trie_set _ k v).
  assert (Ht : forall k', slot_trie_get t k' = if decide (k = k') then v
     else match m !! a with None => 0 | Some t => slot_trie_get t k' end).
  { intros k0. unfold t. rewrite slot_get_set. destruct (decide (k = k0)); [done|].
    destruct (m !! a); done. }
  destruct (decide (t = ∅)) as [E|E].
  - assert (forall k', slot_trie_get t k' = 0) as Hz by (intros; by rewrite E).
    destruct (decide (a = b)) as [<-|Hab].
    + rewrite lookup_delete. specialize (Ht k'). rewrite Hz in Ht.
      destruct (decide (k = k')); [rewrite decide_True by done; done|].
      rewrite decide_False by tauto. done.
    + rewrite lookup_delete_ne by done. by rewrite decide_False by tauto.
  - destruct (decide (a = b)) as [<-|Hab].
    + rewrite lookup_insert, Ht.
      destruct (decide (k = k')); [by rewrite decide_True by done|by rewrite decide_False by tauto].
    + rewrite lookup_insert_ne by done. by rewrite decide_False by tauto.
Qed.

Lemma set_storage_inv s a k v s' :
  set_storage s a k v = Ok s' ->
  (exists acc, main_trie s !! a = Some acc) /\
  s' = set_storages (storages_set (storage_tries s) a k v) s.
Proof.
  unfold set_storage, storages_set.
  destruct (main_trie s !! a) as [acc|] eqn:E; [|done].
  destruct (decide _); intros [= <-]; eauto.
Qed.

Lemma clean_storages_set m a k v : clean_storages m -> clean_storages (storages_set m a k v).
Proof.
  intros Hc. unfold storages_set. set (t := slot_trie_set _ k v).
  assert (Ht : forall k v, t !! k = Some v -> v <> 0).
  { intros k0 v0. unfold t, slot_trie_set.
    assert (forall k1 v1, default ∅ (m !! a) !! k1 = Some v1 -> v1 <> 0) as Hd.
    { intros k1 v1. destruct (m !! a) as [t0|] eqn:E; simpl.
      - apply (Hc a t0 E). - rewrite lookup_empty. done. }
    destruct (N.eqb_spec v 0).
    - destruct (decide (k = k0)) as [->|]; [by rewrite lookup_delete|].
      rewrite lookup_delete_ne by done. apply Hd.
    - destruct (decide (k = k0)) as [->|].
      + rewrite lookup_insert. congruence.
      + rewrite lookup_insert_ne by done. apply Hd. }
  destruct (decide (t = ∅)).
  - intros b t0. destruct (decide (a = b)) as [->|]; [by rewrite lookup_delete|].
    rewrite lookup_delete_ne by done. apply Hc.
  - intros b t0. destruct (decide (a = b)) as [->|].
    + rewrite lookup_insert. intros [= <-]. done.
    + rewrite lookup_insert_ne by done. apply Hc.
Qed.

Lemma clean_storages_delete m a : clean_storages m -> clean_storages (delete a m).
Proof.
  intros Hc b t. destruct (decide (a = b)) as [->|]; [by rewrite lookup_delete|].
  rewrite lookup_delete_ne by done. apply Hc.
Qed.

Lemma clean_has_storage m a :
  clean_storages m -> (forall k, slot_of m a k = 0) -> m !! a = None.
Proof.
  intros Hc Hz. destruct (m !! a) as [t|] eqn:E; [|done].
  destruct (Hc a t E) as [Hne Hv].
  destruct (map_choose t) as (k & v & Hk). { done. }
  specialize (Hz k). unfold slot_of in Hz. rewrite E in Hz.
  unfold slot_trie_get in Hz. rewrite Hk in Hz. simpl in Hz.
  exfalso. apply (Hv k v Hk). done.
Qed.

Lemma set_transient_unfold t a k v :
  set_transient_storage t a k v =
  TransientStorage (storages_set (ts_tries t) a k v) (ts_snapshots t).
Proof. unfold set_transient_storage, storages_set. destruct (decide _); done. Qed.

(** ** Programs over the state API *)

(** The effect of an elementary call on snapshots: none. *)
Lemma run_op_snapshots o w w' : run_op o w = Ok w' -> same_snapshots w w'.
Proof.
  unfold same_snapshots.
  destruct o; simpl; unfold on_state; intros H.
  all: try (injection H as <-; simpl;
            rewrite ?set_transient_unfold; simpl;
            unfold destroy_account; rewrite ?set_account_snapshots, ?destroy_storage_snapshots; done).
  - destruct (set_storage _ _ _ _) as [s|] eqn:E; [|done]. injection H as <-.
    apply set_storage_inv in E as [_ ->]. done.
  - destruct (move_ether _ _ _ _) as [s|] eqn:E; [|done]. injection H as <-.
    apply move_ether_storages_sub in E as [E _]. simpl. by rewrite E.
  - destruct (set_account_balance _ _ _) as [s|] eqn:E; [|done]. injection H as <-.
    pose proof (modify_state_snapshots _ _ _ _ E) as E'. simpl. by rewrite E'.
  - destruct (increment_nonce _ _) as [s|] eqn:E; [|done]. injection H as <-.
    pose proof (modify_state_snapshots _ _ _ _ E) as E'. simpl. by rewrite E'.
  - destruct (set_code _ _ _) as [s|] eqn:E; [|done]. injection H as <-.
    pose proof (modify_state_snapshots _ _ _ _ E) as E'. simpl. by rewrite E'.
Qed.

Lemma rollback_inv w w' :
  rollback_transaction w = Ok w' ->
  exists m sto tsm,
    snapshots (st w) = (m, sto) :: snapshots (st w') /\
    ts_snapshots (ts w) = tsm :: ts_snapshots (ts w') /\
    main_trie (st w') = m /\ storage_tries (st w') = sto /\ ts_tries (ts w') = tsm /\
    created_accounts (st w') = created_after_pop (snapshots (st w')) (created_accounts (st w)).
Proof.
  unfold rollback_transaction.
  destruct (snapshots (st w)) as [|[m sto] rest]; [done|].
  destruct (ts_snapshots (ts w)) as [|tsm trest]; [done|].
  intros [= <-]. simpl. eauto 10.
Qed.

Lemma commit_inv w w' :
  commit_transaction w = Ok w' ->
  exists x tsm,
    snapshots (st w) = x :: snapshots (st w') /\
    ts_snapshots (ts w) = tsm :: ts_snapshots (ts w') /\
    main_trie (st w') = main_trie (st w) /\
    storage_tries (st w') = storage_tries (st w) /\
    ts_tries (ts w') = ts_tries (ts w) /\
    created_accounts (st w') = created_after_pop (snapshots (st w')) (created_accounts (st w)).
Proof.
  unfold commit_transaction.
  destruct (snapshots (st w)) as [|x rest]; [done|].
  destruct (ts_snapshots (ts w)) as [|tsm trest]; [done|].
  intros [= <-]. simpl. eauto 10.
Qed.

Lemma run_snapshots p : forall w w', run p w = Ok w' -> same_snapshots w w'.
Proof.
  induction p as [|o|p IHp q IHq|p IHp|p IHp]; simpl; intros w w' H.
  - by injection H as <-.
  - by apply run_op_snapshots with o.
  - destruct (run p w) as [w1|] eqn:E; [|done].
    destruct (IHp _ _ E), (IHq _ _ H). split; congruence.
  - destruct (run p _) as [w1|] eqn:E; [|done].
    destruct (IHp _ _ E) as [E1 E2]. apply commit_inv in H as (x & t & Hx & Ht & _).
    simpl in *. rewrite Hx in E1. rewrite Ht in E2. split; congruence.
  - destruct (run p _) as [w1|] eqn:E; [|done].
    destruct (IHp _ _ E) as [E1 E2]. apply rollback_inv in H as (m & sto & t & Hx & Ht & _).
    simpl in *. rewrite Hx in E1. rewrite Ht in E2. split; congruence.
Qed.

Lemma same_reads_eq w w' :
  main_trie (st w) = main_trie (st w') ->
  storage_tries (st w) = storage_tries (st w') ->
  ts_tries (ts w) = ts_tries (ts w') -> same_reads w w'.
Proof.
  intros E1 E2 E3.
  unfold same_reads, get_account, get_account_optional, get_storage, account_has_storage,
    get_transient_storage.
  rewrite E1, E2, E3. done.
Qed.

Lemma rollback_restores_lemma p w w1 w2 :
  run p (begin_transaction w) = Ok w1 ->
  rollback_transaction w1 = Ok w2 ->
  same_reads w w2 /\ same_snapshots w w2.
Proof.
  intros H1 H2. pose proof (run_snapshots p _ _ H1) as [E1 E2].
  apply rollback_inv in H2 as (m & sto & tsm & Hs & Ht & Em & Es & Et & _).
  simpl in *. rewrite Hs in E1. rewrite Ht in E2.
  injection E1 as E1a E1b E1c. injection E2 as E2a E2b.
  split; [apply same_reads_eq; congruence|split; congruence].
Qed.

Lemma rollback_never_fails_lemma p w w1 :
  run p (begin_transaction w) = Ok w1 ->
  exists w2 w3, rollback_transaction w1 = Ok w2 /\ commit_transaction w1 = Ok w3.
Proof.
  intros H1. pose proof (run_snapshots p _ _ H1) as [E1 E2]. simpl in *.
  unfold rollback_transaction, commit_transaction. rewrite <- E1, <- E2. eauto.
Qed.

Lemma commit_keeps_lemma w w' :
  commit_transaction w = Ok w' -> same_reads w w'.
Proof.
  intros H. apply commit_inv in H as (x & t & _ & _ & E1 & E2 & E3 & _).
  apply same_reads_eq; congruence.
Qed.

(** ** clean_world is invariant *)
Lemma clean_modify s a f s' :
  modify_state s a f = Ok s' -> clean_state s -> clean_state s'.
Proof.
  intros H [H1 H2]. split.
  - apply modify_state_storages in H as [->|(_ & _ & ->)]; [done|].
    by apply clean_storages_delete.
  - rewrite (modify_state_snapshots _ _ _ _ H). done.
Qed.

Lemma clean_destroy_storage s a : clean_state s -> clean_state (destroy_storage s a).
Proof.
  intros [H1 H2]. split.
  - rewrite destroy_storage_storages. by apply clean_storages_delete.
  - by rewrite destroy_storage_snapshots.
Qed.

Lemma clean_run_op o w w' : run_op o w = Ok w' -> clean_world w -> clean_world w'.
Proof.
  intros H (Hs & Ht & Hts).
  destruct o; simpl in H; unfold on_state in H.
  1-4: (injection H as <-; split; [|done]; simpl; try done).
  - by apply clean_destroy_storage.
  - by apply clean_destroy_storage.
  - destruct (set_storage _ _ _ _) as [s|] eqn:E; [|done]. injection H as <-.
    apply set_storage_inv in E as [_ ->]. split; [|done]. destruct Hs as [Hs1 Hs2].
    split; [|done]. by apply clean_storages_set.
  - injection H as <-. split; [done|]. rewrite set_transient_unfold. simpl. split; [|done].
    by apply clean_storages_set.
  - destruct (move_ether _ _ _ _) as [s|] eqn:E; [|done]. injection H as <-.
    split; [|done]. simpl. apply move_ether_inv in E as (s1 & _ & E1 & E2 & _).
    eapply clean_modify; [exact E2|]. eapply clean_modify; [exact E1|done].
  - destruct (set_account_balance _ _ _) as [s|] eqn:E; [|done]. injection H as <-.
    split; [|done]. simpl. eapply clean_modify; [exact E|done].
  - destruct (increment_nonce _ _) as [s|] eqn:E; [|done]. injection H as <-.
    split; [|done]. simpl. eapply clean_modify; [exact E|done].
  - destruct (set_code _ _ _) as [s|] eqn:E; [|done]. injection H as <-.
    split; [|done]. simpl. eapply clean_modify; [exact E|done].
Qed.

Lemma clean_begin w : clean_world w -> clean_world (begin_transaction w).
Proof.
  intros ((H1 & H2) & H3 & H4). split; [split|split]; simpl; try done.
  - intros m sto [[= <- <-]|Hin]; [done|]. by apply (H2 m sto).
  - intros sto [<-|Hin]; [done|]. by apply H4.
Qed.

Lemma clean_commit w w' : commit_transaction w = Ok w' -> clean_world w -> clean_world w'.
Proof.
  intros H ((H1 & H2) & H3 & H4).
  apply commit_inv in H as (x & t & Hs & Ht & E1 & E2 & E3 & _).
  split; [split|split].
  - by rewrite E2. - intros m sto Hin. apply (H2 m sto). rewrite Hs. by right.
  - by rewrite E3. - intros sto Hin. apply H4. rewrite Ht. by right.
Qed.

Lemma clean_rollback w w' : rollback_transaction w = Ok w' -> clean_world w -> clean_world w'.
Proof.
  intros H ((H1 & H2) & H3 & H4).
  apply rollback_inv in H as (m & sto & t & Hs & Ht & E1 & E2 & E3 & _).
  split; [split|split].
  - rewrite E2. apply (H2 m sto). rewrite Hs. by left.
  - intros m' sto' Hin. apply (H2 m' sto'). rewrite Hs. by right.
  - rewrite E3. apply H4. rewrite Ht. by left.
  - intros sto' Hin. apply H4. rewrite Ht. by right.
Qed.

Lemma clean_run p : forall w w', run p w = Ok w' -> clean_world w -> clean_world w'.
Proof.
  induction p as [|o|p IHp q IHq|p IHp|p IHp]; simpl; intros w w' H Hc.
  - by injection H as <-.
  - by eapply clean_run_op.
  - destruct (run p w) as [w1|] eqn:E; [|done]. eauto.
  - destruct (run p _) as [w1|] eqn:E; [|done].
    eapply clean_commit; [exact H|]. eapply IHp; [exact E|]. by apply clean_begin.
  - destruct (run p _) as [w1|] eqn:E; [|done].
    eapply clean_rollback; [exact H|]. eapply IHp; [exact E|]. by apply clean_begin.
Qed.
