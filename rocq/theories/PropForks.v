(** * PropForks: property C45 (fork criteria and the choice of the active
    fork). *)
From Verif Require Import Base ForkCriteria.
From Coq Require Import ZifyBool ZifyN ZifyNat Sorting.Sorted.

(** ** The order *)

(** When one criterion comes before another, said without the tuples. *)
Definition before (a b : fork_criteria) : Prop :=
  match a, b with
  | ByBlockNumber m, ByBlockNumber n => m < n
  | ByBlockNumber _, _ => True
  | ByTimestamp _, ByBlockNumber _ => False
  | ByTimestamp m, ByTimestamp n => m < n
  | ByTimestamp _, Unscheduled => True
  | Unscheduled, _ => False
  end.

Theorem C45_order a b :
  (fc_lt a b = true <-> before a b) /\ (fc_eq a b = true <-> a = b) /\
  (fc_le a b = true <-> before a b \/ a = b) /\ (fc_gt a b = true <-> before b a) /\
  (fc_ge a b = true <-> before b a \/ a = b).
Proof.
  assert (EB : fc_lt a b = true <-> before a b).
  { unfold fc_lt, tuple_ltb. destruct a, b; cbn; rewrite ?N.ltb_lt; done. }
  assert (EE : fc_eq a b = true <-> a = b).
  { unfold fc_eq, tuple_eqb. destruct a, b; cbn; rewrite ?N.eqb_eq; split; congruence. }
  assert (ET : (~ before a b) <-> before b a \/ a = b).
  { destruct a as [m|m|], b as [n|n|]; cbn; intuition (try congruence; try lia);
      try (match goal with H : _ = _ |- _ => injection H; lia end);
      (destruct (N.lt_trichotomy m n) as [?|[?|?]]; [by exfalso|right; congruence|by left]). }
  assert (EN : before b a -> a <> b) by (intros H ->; destruct b; cbn in H; lia || done).
  unfold fc_le, fc_gt, fc_ge. refine (conj EB (conj EE (conj _ (conj _ _)))).
  - rewrite orb_true_iff. tauto.
  - rewrite andb_true_iff, !negb_true_iff, <- !not_true_iff_false. tauto.
  - rewrite negb_true_iff, <- not_true_iff_false. tauto.
Qed.

(** A strict total order. *)
Theorem C45_total_order a b c :
  ~ before a a /\ (before a b -> before b c -> before a c) /\ (before a b \/ a = b \/ before b a).
Proof.
  split_and!.
  - destruct a; cbn; lia.
  - destruct a, b, c; cbn; lia || done.
  - destruct a as [m|m|], b as [n|n|]; cbn; try tauto;
      (destruct (N.lt_trichotomy m n) as [?|[->|?]]; tauto).
Qed.

(** ** Activation *)

(** Once activated, a fork stays activated in later blocks; an unscheduled
    fork never is. *)
Theorem C45_stays_activated c n t n' t' : n <= n' -> t <= t' ->
  fc_check c n t = true -> fc_check c n' t' = true.
Proof. destruct c; cbn; lia. Qed.
Theorem C45_unscheduled n t : fc_check Unscheduled n t = false.
Proof. done. Qed.

(** Among forks of one kind, an earlier one is activated first. *)
Definition same_kind (a b : fork_criteria) : Prop :=
  match a, b with
  | ByBlockNumber _, ByBlockNumber _ | ByTimestamp _, ByTimestamp _ | Unscheduled, Unscheduled => True
  | _, _ => False
  end.
Theorem C45_earlier_first a b n t : same_kind a b -> before a b ->
  fc_check b n t = true -> fc_check a n t = true.
Proof. destruct a, b; cbn; lia || done. Qed.

(** Across kinds this is not so: the order puts all block-number forks first,
    whatever the block. *)
Theorem C45_earlier_first_refuted : exists a b n t,
  before a b /\ fc_check b n t = true /\ fc_check a n t = false.
Proof. by exists (ByBlockNumber 100), (ByTimestamp 5), 1, 10. Qed.

(** ** The active fork *)

(** [i] is the largest index such that all forks up to it are activated (the
    first one always counts as activated). *)
Definition last_activated (forks : list fork_criteria) (n t : N) (i : nat) : Prop :=
  (forall j c, (1 <= j <= i)%nat -> nth_error forks j = Some c -> fc_check c n t = true) /\
  (forall c, nth_error forks (S i) = Some c -> fc_check c n t = false) /\
  (i < length forks \/ forks = [] /\ i = 0)%nat.

Lemma advance_loop_spec later n t : forall i,
  let r := advance_loop later n t i in
  (i <= r <= i + length later)%nat /\
  (forall j c, (j < r - i)%nat -> nth_error later j = Some c -> fc_check c n t = true) /\
  (forall c, nth_error later (r - i) = Some c -> fc_check c n t = false).
Proof.
  induction later as [|d later IH]; intros i; cbn [advance_loop].
  { cbn. split; [lia|]. split; [lia|]. intros c. by destruct (i - i)%nat. }
  destruct (fc_check d n t) eqn:E; cbn zeta.
  - destruct (IH (S i)) as (H1 & H2 & H3). cbn zeta in *.
    set (r := advance_loop later n t (S i)) in *. clearbody r. cbn [length]. split; [lia|]. split.
    + intros [|j] c Hj; cbn; [congruence|]. apply H2. lia.
    + intros c. replace (r - i)%nat with (S (r - S i)) by lia. apply H3.
  - cbn [length]. split; [lia|]. split; [lia|]. intros c. rewrite Nat.sub_diag. cbn. congruence.
Qed.

Theorem C45_set_block tr n t :
  last_activated (ft_forks tr) n t (ft_active_fork_index (set_block tr n t)).
Proof.
  unfold set_block; cbn [ft_active_fork_index].
  destruct (advance_loop_spec (skipn 1 (ft_forks tr)) n t 0) as (H1 & H2 & H3). cbn zeta in *.
  set (r := advance_loop _ n t 0) in *. clearbody r. destruct (ft_forks tr) as [|f fs]; cbn in *;
    rewrite ?drop_0 in *.
  { split_and!; [intros [|j] c; [lia|done]|done|right; split; [done|lia]]. }
  split_and!.
  - intros [|j] c Hj; [lia|]. cbn. apply H2. lia.
  - intros c. rewrite Nat.sub_0_r in H3. apply H3.
  - left. cbn. lia.
Qed.

(** The index is determined by the block. *)
Lemma last_activated_unique forks n t i j :
  last_activated forks n t i -> last_activated forks n t j -> i = j.
Proof.
  assert (G : forall i j, last_activated forks n t i -> last_activated forks n t j -> (i < j)%nat -> False).
  { intros i' j' (A1 & A2 & A3) (B1 & B2 & B3) L.
    assert (S i' < length forks)%nat as HL by (destruct B3 as [?|[-> ->]]; [lia|cbn in *; lia]).
    destruct (nth_error forks (S i')) as [c|] eqn:E; [|apply nth_error_None in E; lia].
    specialize (B1 (S i') c ltac:(lia) E). specialize (A2 c eq_refl). congruence. }
  intros Hi Hj. destruct (Nat.lt_trichotomy i j) as [L|[L|L]]; [|done|]; exfalso; eauto.
Qed.

(** Following a chain block by block selects the same fork as jumping to its
    last block, as long as timestamps do not decrease. *)
Fixpoint follow (tr : fork_tracking) (timestamps : list N) : fork_tracking :=
  match timestamps with
  | [] => tr
  | t :: rest => follow (snd (advance_block tr t)) rest
  end.

Lemma advance_block_spec tr n t t' : t <= t' ->
  last_activated (ft_forks tr) n t (ft_active_fork_index tr) -> ft_block_number tr = n ->
  last_activated (ft_forks tr) (n + 1) t' (ft_active_fork_index (snd (advance_block tr t'))).
Proof.
  intros Ht (A1 & A2 & A3) <-. unfold advance_block; cbn [snd ft_active_fork_index].
  set (i := ft_active_fork_index tr) in *. set (forks := ft_forks tr) in *.
  destruct (advance_loop_spec (skipn (S i) forks) (ft_block_number tr + 1) t' i) as (H1 & H2 & H3). cbn zeta in *.
  set (r := advance_loop _ _ t' i) in *. clearbody r. rewrite skipn_length in H1.
  assert (HN : forall k, nth_error (skipn (S i) forks) k = nth_error forks (S i + k)).
  { clear. generalize (S i). induction forks as [|x l IH]; intros m k;
      [by rewrite drop_nil; destruct k, m|].
    destruct m; [done|]. cbn. rewrite IH. done. }
  split_and!.
  - intros j c Hj E. destruct (Nat.le_gt_cases j i) as [L|L].
    + apply (C45_stays_activated c (ft_block_number tr) t); [lia|done|]. apply (A1 j); [lia|done].
    + apply (H2 (j - S i)%nat); [lia|]. rewrite HN. by replace (S i + (j - S i))%nat with j by lia.
  - intros c E. apply H3. rewrite HN. by replace (S i + (r - i))%nat with (S r) by lia.
  - destruct A3 as [A3|[A3 A3']]; [left; lia|]. right. rewrite A3 in *. cbn in H1. split; [done|lia].
Qed.

Theorem C45_incremental tr n t timestamps :
  StronglySorted N.le (t :: timestamps) ->
  ft_active_fork_index (follow (set_block tr n t) timestamps) =
  ft_active_fork_index (set_block tr (n + N.of_nat (length timestamps)) (List.last timestamps t)).
Proof.
  intros HS.
  assert (G : forall ts u m tr', StronglySorted N.le (u :: ts) -> ft_block_number tr' = m ->
    last_activated (ft_forks tr') m u (ft_active_fork_index tr') ->
    last_activated (ft_forks tr') (m + N.of_nat (length ts)) (List.last ts u)
      (ft_active_fork_index (follow tr' ts))).
  { clear. induction ts as [|v ts IH]; intros u m tr' HS Hm HL.
    - cbn. by rewrite N.add_0_r.
    - inversion HS as [|? ? HS' HF]; subst. inversion HF as [|? ? Huv HF']; subst.
      pose proof (advance_block_spec tr' _ u v Huv HL eq_refl) as HA.
      cbn [follow]. specialize (IH v (ft_block_number tr' + 1) (snd (advance_block tr' v)) HS' eq_refl HA).
      cbn [length]. replace (ft_block_number tr' + N.of_nat (S (length ts)))
        with (ft_block_number tr' + 1 + N.of_nat (length ts)) by lia.
      assert (EL : List.last (v :: ts) u = List.last ts v).
      { clear. revert v. induction ts as [|w ts IH]; intros v; [done|].
        change (List.last (v :: w :: ts) u) with (List.last (w :: ts) u). rewrite IH.
        destruct ts; [done|]. cbn [List.last]. clear. revert n. induction ts; intros; [done|]. cbn.
        destruct ts; [done|]. apply (IHts a). }
      rewrite EL. exact IH. }
  apply (last_activated_unique (ft_forks tr) (n + N.of_nat (length timestamps)) (List.last timestamps t)).
  - apply (G timestamps t n (set_block tr n t) HS eq_refl). apply (C45_set_block tr n t).
  - apply C45_set_block.
Qed.

(** With the forks in order (as the code sorts them) and every block-number
    fork activated by the time a timestamp fork is, the active fork is the
    latest activated one. *)
Theorem C45_active_is_latest tr n t i c :
  StronglySorted before (ft_forks tr) ->
  (forall m u, In (ByBlockNumber m) (ft_forks tr) -> In (ByTimestamp u) (ft_forks tr) -> u <= t -> m <= n) ->
  nth_error (ft_forks tr) i = Some c -> fc_check c n t = true ->
  (i <= ft_active_fork_index (set_block tr n t))%nat.
Proof.
  intros HS HK Hi Hc. destruct (C45_set_block tr n t) as (_ & A2 & A3).
  set (r := ft_active_fork_index _) in *. clearbody r.
  destruct (Nat.le_gt_cases i r) as [L|L]; [done|exfalso].
  assert (HL : (i < length (ft_forks tr))%nat) by (apply nth_error_Some; congruence).
  destruct (nth_error (ft_forks tr) (S r)) as [d|] eqn:E; [|apply nth_error_None in E; lia].
  specialize (A2 d eq_refl). assert (Hdc : d = c \/ before d c).
  { destruct (Nat.eq_dec (S r) i) as [<-|Hne]; [left; congruence|right].
    assert (S r < i)%nat as Hlt by lia. clear -HS E Hi Hlt. revert E Hi Hlt. generalize (S r) as j. revert i.
    induction HS as [|x l HS IH HF]; intros i j; [by destruct j|]. destruct j as [|j]; cbn.
    - intros [= ->]. destruct i as [|i]; [lia|]. cbn. intros Hi _. rewrite List.Forall_forall in HF.
      apply HF. by eapply nth_error_In.
    - destruct i as [|i]; [lia|]. cbn. intros H1 H2 H3. eapply IH; [exact H1|exact H2|lia]. }
  apply nth_error_In in E, Hi. destruct Hdc as [->|Hdc]; [congruence|].
  destruct d as [m|m|], c as [k|k|]; cbn in *; try done; try lia.
  specialize (HK _ _ E Hi ltac:(lia)). lia.
Qed.

(** A fork is reached with the block of its number, or with the first block of
    its time; not before. *)
Definition reached (c : fork_criteria) (n t : N) : Prop :=
  match c with
  | ByBlockNumber first => first <= n
  | ByTimestamp first => first <= t
  | Unscheduled => False
  end.
Theorem C45_check c n t : fc_check c n t = true <-> reached c n t.
Proof. destruct c; cbn; rewrite ?N.leb_le; done. Qed.
(** The active fork is at or after a given one from exactly the block on that
    reaches it. *)
Theorem C45_active tr n t i c :
  StronglySorted before (ft_forks tr) ->
  (forall m u, In (ByBlockNumber m) (ft_forks tr) -> In (ByTimestamp u) (ft_forks tr) -> u <= t -> m <= n) ->
  nth_error (ft_forks tr) i = Some c ->
  (i <= ft_active_fork_index (set_block tr n t))%nat <-> i = 0%nat \/ reached c n t.
Proof.
  intros HS HK Hi. destruct (C45_set_block tr n t) as (A1 & _). split.
  - intros Hle. destruct i; [by left|]. right. apply C45_check. apply (A1 (S i)); [lia|done].
  - intros [->|Hr]; [lia|]. eapply C45_active_is_latest; [done|done|done|]. by apply C45_check.
Qed.

(** [advance_block] goes to the next block and says whether its active fork is
    another one. *)
Theorem C45_changed tr n t t' : t <= t' ->
  let '(changed, tr') := advance_block (set_block tr n t) t' in
  ft_block_number tr' = n + 1 /\
  ft_active_fork_index tr' = ft_active_fork_index (set_block tr (n + 1) t') /\
  (changed = true <->
   ft_active_fork_index (set_block tr (n + 1) t') <> ft_active_fork_index (set_block tr n t)).
Proof.
  intros Ht. pose proof (C45_incremental tr n t [t']) as HI. cbn [length N.of_nat List.last follow] in HI.
  assert (HS : StronglySorted N.le [t; t']) by (repeat constructor; done). specialize (HI HS).
  destruct (advance_block (set_block tr n t) t') as [ch tr'] eqn:E. cbn [snd] in HI.
  change (n + N.pos (Pos.of_succ_nat 0)) with (n + 1) in HI.
  split; [|split; [exact HI|]].
  - unfold advance_block in E. injection E as _ <-. done.
  - rewrite <- HI. unfold advance_block in E. injection E as <- <-. cbn [ft_active_fork_index].
    rewrite negb_true_iff, Nat.eqb_neq. done.
Qed.

(** The Mainnet schedule of the specification, from each fork's
    [FORK_CRITERIA]. *)
Definition mainnet : list fork_criteria :=
  [ByBlockNumber 0; ByBlockNumber 1150000; ByBlockNumber 1920000; ByBlockNumber 2463000;
   ByBlockNumber 2675000; ByBlockNumber 4370000; ByBlockNumber 7280000; ByBlockNumber 9069000;
   ByBlockNumber 9200000; ByBlockNumber 12244000; ByBlockNumber 12965000; ByBlockNumber 13773000;
   ByBlockNumber 15050000; ByBlockNumber 15537394; ByTimestamp 1681338455; ByTimestamp 1710338135;
   ByTimestamp 1746612311; Unscheduled].
Example C45_nonvacuous :
  StronglySorted before mainnet /\
  (forall m u, In (ByBlockNumber m) mainnet -> In (ByTimestamp u) mainnet ->
     u <= 1750000000 -> m <= 22000000) /\
  ft_active_fork_index (set_block (ForkTracking mainnet 0 0) 22000000 1750000000) = 16%nat /\
  ft_active_fork_index (follow (set_block (ForkTracking mainnet 0 0) 15537392 1681338000)
    [1681338454; 1681338455; 1681338460]) = 14%nat.
Proof.
  refine (conj _ (conj _ _)).
  - unfold mainnet. repeat (constructor; [|by repeat (constructor; [done|])]). constructor.
  - intros m u Hm _ _. unfold mainnet in Hm. cbn [In] in Hm.
    repeat (destruct Hm as [Hm|Hm]; [first [discriminate Hm|injection Hm as <-; done]|]). destruct Hm.
  - by vm_compute.
Qed.

Definition PropForks_theorems :=
  (@C45_order, @C45_total_order, @C45_stays_activated, @C45_unscheduled, @C45_earlier_first,
   @C45_earlier_first_refuted, @C45_set_block, @C45_incremental, @C45_active_is_latest,
   @C45_check, @C45_active, @C45_changed).
Print Assumptions PropForks_theorems.
