(** * Properties of Ethash (C60, C61). *)
From Coq Require Import Znumtheory ZifyBool ZifyN ZifyNat.
From Verif Require Import Base Vm Precompiles Transactions Fork Ethash NumericProofs PrecompileSpec
  PropBlake2.

Ltac Zify.zify_post_hook ::= idtac.

(** ** Vocabulary *)

(** [p] is the largest prime below [b]. *)
Definition largest_prime_below (b p : N) : Prop :=
  prime (Z.of_N p) /\ p < b /\ forall q, prime (Z.of_N q) -> q < b -> q <= p.

(** Hashes of 64 bytes *)
Definition digests64 (keccak512 : bytes -> bytes) : Prop := forall b, lenN (keccak512 b) = 64.

(** Element [i] of a sequence of words, and row [i] of a table *)
Definition word (l : list N) (i : N) : N := nth (N.to_nat i) l 0.
Definition row {A} (t : list (list A)) (i : N) : list A := nth (N.to_nat i) t [].
(** The little-endian 32-bit word [i] of a byte string *)
Definition word32 (b : bytes) (i : N) : N := little_endian b (4 * i) 4.
(** [l] lists the [n] words of [b]. *)
Definition words_of (b : bytes) (n : N) (l : list N) : Prop :=
  lenN l = n /\ forall k, k < n -> word l k = word32 b k.

(** ** Ranges and loops *)
Lemma numbers_In n : forall a x, In x (numbers_from a n) <-> a <= x < a + N.of_nat n.
Proof.
  induction n as [|n IH]; intros a x; cbn [numbers_from In].
  - lia.
  - rewrite IH. lia.
Qed.
Lemma range_In a b x : In x (range a b) <-> a <= x < b.
Proof. unfold range. rewrite numbers_In. lia. Qed.
Lemma range_nil a b : b <= a -> range a b = [].
Proof. intros H. unfold range. by replace (b - a) with 0 by lia. Qed.
Lemma numbers_snoc n : forall a, numbers_from a (S n) = numbers_from a n ++ [a + N.of_nat n].
Proof.
  induction n as [|n IH]; intros a.
  - cbn [numbers_from app]. change (N.of_nat 0) with 0. by rewrite N.add_0_r.
  - change (numbers_from a (S (S n))) with (a :: numbers_from (a + 1) (S n)). rewrite IH.
    change (numbers_from a (S n)) with (a :: numbers_from (a + 1) n). cbn [app].
    by replace (a + 1 + N.of_nat n) with (a + N.of_nat (S n)) by lia.
Qed.
Lemma range_snoc a b : a <= b -> range a (b + 1) = range a b ++ [b].
Proof.
  intros H. unfold range. replace (N.to_nat (b + 1 - a)) with (S (N.to_nat (b - a))) by lia.
  rewrite numbers_snoc. by replace (a + N.of_nat (N.to_nat (b - a))) with b by lia.
Qed.
Lemma range_len a b : lenN (range a b) = b - a.
Proof.
  unfold range, lenN.
  assert (forall n a, length (numbers_from a n) = n) as ->; [|lia].
  induction n as [|n IH]; intros a0; [done|]. cbn. by rewrite IH.
Qed.
Lemma range_nth b i : i < b -> nth_error (range 0 b) (N.to_nat i) = Some i.
Proof.
  intros H. unfold range. rewrite N.sub_0_r.
  assert (forall n a k, (k < n)%nat -> nth_error (numbers_from a n) k = Some (a + N.of_nat k)) as E.
  { induction n as [|n IH]; intros a k Hk; [lia|]. destruct k as [|k].
    - cbn [numbers_from nth_error]. f_equal. lia.
    - cbn [numbers_from nth_error]. rewrite IH by lia. f_equal. lia. }
  rewrite E by lia. f_equal. lia.
Qed.

Lemma for_app {A S} (l1 l2 : list A) (f : S -> A -> outcome S) s :
  for_loop (l1 ++ l2) f s = (s <~ for_loop l1 f s ;; for_loop l2 f s).
Proof.
  revert s. induction l1 as [|x l1 IH]; intros s; [done|]. cbn.
  destruct (f s x); cbn; [apply IH|done].
Qed.

(** A loop over a range whose steps succeed passes through a sequence of
    states. *)
Lemma for_trace {S} (I : N -> S -> Prop) (f : S -> N -> outcome S) a b s :
  a <= b -> I a s ->
  (forall i s, a <= i < b -> I i s -> exists s', f s i = Done s' /\ I (i + 1) s') ->
  exists m : N -> S, m a = s /\ for_loop (range a b) f s = Done (m b) /\
    (forall i, a <= i <= b -> I i (m i)) /\
    (forall i, a <= i < b -> f (m i) i = Done (m (i + 1))).
Proof.
  intros Hab Hs Hf.
  set (m := fun i => match for_loop (range a i) f s with Done s' => s' | Fail _ => s end).
  assert (Hm : forall i, a <= i <= b -> for_loop (range a i) f s = Done (m i) /\ I i (m i)).
  { intros i. assert (exists k, k = i - a) as [k Hk] by eauto.
    revert i Hk. induction k as [|k IH] using N.peano_ind; intros i Hk Hi.
    - assert (i = a) as -> by lia. unfold m. rewrite range_nil by lia. done.
    - destruct (IH (i - 1)) as [H1 H2]; [lia|lia|].
      destruct (Hf (i - 1) (m (i - 1))) as (s' & H3 & H4); [lia|done|].
      assert (for_loop (range a i) f s = Done s') as H5.
      { replace i with (i - 1 + 1) by lia. rewrite range_snoc, for_app, H1 by lia. cbn.
        by rewrite H3. }
      replace (i - 1 + 1) with i in H4 by lia.
      assert (m i = s') as -> by (unfold m; by rewrite H5). done. }
  exists m. split.
  { unfold m. by rewrite range_nil by lia. }
  split; [apply Hm; lia|]. split; [intros i Hi; apply Hm; lia|].
  intros i Hi. destruct (Hm i) as [H1 H2]; [lia|]. destruct (Hm (i + 1)) as [H3 _]; [lia|].
  rewrite range_snoc, for_app, H1 in H3 by lia. cbn in H3.
  destruct (f (m i) i); cbn in H3; [congruence|done].
Qed.
Lemma for_range {S} (I : N -> S -> Prop) (f : S -> N -> outcome S) a b s :
  a <= b -> I a s ->
  (forall i s, a <= i < b -> I i s -> exists s', f s i = Done s' /\ I (i + 1) s') ->
  exists s', for_loop (range a b) f s = Done s' /\ I b s'.
Proof.
  intros H1 H2 H3. destruct (for_trace I f a b s H1 H2 H3) as (m & _ & E & H & _).
  exists (m b). split; [done|]. apply H. lia.
Qed.
Lemma for_ext {A S} (l : list A) (f g : S -> A -> outcome S) s :
  (forall s x, In x l -> f s x = g s x) -> for_loop l f s = for_loop l g s.
Proof.
  revert s. induction l as [|x l IH]; intros s H; [done|]. cbn. rewrite H by (left; done).
  destruct (g s x); cbn; [|done]. apply IH. intros. apply H. by right.
Qed.

Lemma collect_done {A B} (f : A -> outcome B) (P : A -> B -> Prop) l :
  (forall x, In x l -> exists y, f x = Done y /\ P x y) ->
  exists r, collect_all f l = Done r /\ Forall2 P l r.
Proof.
  induction l as [|x l IH]; intros H; [exists []; split; [done|constructor]|].
  destruct (H x) as (y & H1 & H2); [by left|].
  destruct IH as (r & H3 & H4); [intros; apply H; by right|].
  exists (y :: r). cbn. rewrite H1. cbn. rewrite H3. cbn. split; [done|by constructor].
Qed.
Lemma collect_range {B} (f : N -> outcome B) (P : N -> B -> Prop) n d :
  (forall i, i < n -> exists y, f i = Done y /\ P i y) ->
  exists r, collect_all f (range 0 n) = Done r /\ lenN r = n /\
    forall i, i < n -> P i (nth (N.to_nat i) r d).
Proof.
  intros H. destruct (collect_done f P (range 0 n)) as (r & H1 & H2).
  { intros x Hx%range_In. apply H. lia. }
  exists r. split; [done|]. pose proof (Forall2_length _ _ _ H2) as HL.
  assert (lenN r = n) as Hn.
  { unfold lenN. rewrite <- HL. fold (lenN (range 0 n)). rewrite range_len. lia. }
  split; [done|]. intros i Hi. pose proof (range_nth n i Hi) as Hr.
  assert (N.to_nat i < length r)%nat as Hlt by (unfold lenN in Hn; lia).
  pose proof (nth_error_nth' r d Hlt) as Hd.
  revert Hr Hd. generalize (nth (N.to_nat i) r d) as y. generalize (N.to_nat i) as k.
  revert H2. generalize (range 0 n) as l. clear. intros l H2 k y. revert k.
  induction H2 as [|a b la lb Hab H2 IH]; intros [|k] E1 E2; cbn in E1, E2;
    [done|done| |by eapply IH].
  by injection E1 as <-; injection E2 as <-.
Qed.

Lemma index_at {A} (l : list A) i d : i < lenN l -> index l i = Done (nth (N.to_nat i) l d).
Proof.
  intros H. unfold index. rewrite nthN_nth_error.
  rewrite (nth_error_nth' l d) by (unfold lenN in H; lia). done.
Qed.
Lemma umod_pos a b : 0 < b -> umod a b = Done (a mod b).
Proof. intros H. unfold umod. by destruct (N.eqb_spec b 0); [lia|]. Qed.
Lemma u32_small a : a < 2 ^ 32 -> u32 a = Done a.
Proof. intros H. unfold u32. by rewrite (proj2 (N.ltb_lt _ _) H). Qed.

(** ** Primes *)
Lemma is_prime_spec n : is_prime n = true <-> prime (Z.of_N n).
Proof.
  unfold is_prime. destruct (N.leb_spec n 1) as [H1|H1].
  { split; [done|]. intros [H _]. lia. }
  rewrite forallb_forall, <- prime_alt. unfold prime'. split.
  - intros H. split; [lia|]. intros d Hd [e He].
    assert (exists d', d = Z.of_N d') as [d' ->] by (exists (Z.to_N d); lia).
    assert (0 < e)%Z as He0 by nia.
    assert (exists e', e = Z.of_N e') as [e' ->] by (exists (Z.to_N e); lia).
    assert (n = e' * d') as Hn by lia.
    assert (1 < e') as He1 by nia.
    assert (forall x y, n = x * y -> 1 < x -> x <= N.sqrt n -> False) as Hx.
    { intros x y Hxy Hx1 Hx2. specialize (H x).
      rewrite range_In in H. specialize (H ltac:(lia)).
      rewrite Hxy, N.mul_comm, N.mod_mul in H by lia. done. }
    pose proof (N.sqrt_spec n) as [Hs1 Hs2]; [lia|].
    destruct (N.le_gt_cases e' (N.sqrt n)) as [H3|H3]; [by apply (Hx e' d')|].
    destruct (N.le_gt_cases d' (N.sqrt n)) as [H4|H4]; [apply (Hx d' e'); lia|].
    clear -Hn H3 H4 Hs2. nia.
  - intros [_ H] x Hx%range_In. apply negb_true_iff, N.eqb_neq. intros H0.
    apply (H (Z.of_N x)).
    + pose proof (N.sqrt_spec n) as [Hs1 _]; [lia|].
      assert (x <= N.sqrt n) as Hx2 by lia. split; [lia|]. nia.
    + exists (Z.of_N (n / x)). pose proof (N.div_mod n x). lia.
Qed.
(** Trial division by the numbers that 2 and 3 do not divide *)
Fixpoint trial (k : nat) (x n : N) : bool :=
  match k with
  | O => true
  | S k => negb (n mod x =? 0) && negb (n mod (x + 2) =? 0) && trial k (x + 6) n
  end.
Lemma trial_spec k : forall x n j, trial k x n = true -> j < N.of_nat k ->
  n mod (x + 6 * j) <> 0 /\ n mod (x + 6 * j + 2) <> 0.
Proof.
  induction k as [|k IH]; intros x n j H Hj; [lia|]. cbn [trial] in H.
  apply andb_true_iff in H as [[H1 H2]%andb_true_iff H3].
  apply negb_true_iff, N.eqb_neq in H1. apply negb_true_iff, N.eqb_neq in H2.
  destruct (N.eq_dec j 0) as [->|Hj0].
  - change (6 * 0) with 0. rewrite N.add_0_r. split; assumption.
  - specialize (IH (x + 6) n (j - 1) H3 ltac:(lia)).
    replace (x + 6 + 6 * (j - 1)) with (x + 6 * j) in IH by (clear -Hj0; lia). exact IH.
Qed.
Lemma trial_prime n k : 1 < n -> n mod 2 <> 0 -> n mod 3 <> 0 -> trial k 5 n = true ->
  N.sqrt n <= 6 * N.of_nat k + 4 -> prime (Z.of_N n).
Proof.
  intros Hn H2 H3 Ht Hs. apply is_prime_spec. unfold is_prime.
  destruct (N.leb_spec n 1) as [H|_]; [lia|]. apply forallb_forall. intros x Hx%range_In.
  apply negb_true_iff, N.eqb_neq. intros H0.
  assert (Hd : forall y, y <> 0 -> x mod y = 0 -> n mod y = 0).
  { intros y Hy Hxy. apply N.mod_divide; [done|]. apply N.mod_divide in Hxy; [|done].
    apply N.mod_divide in H0; [|lia]. by eapply N.divide_trans. }
  pose proof (N.div_mod x 6 ltac:(lia)) as E. pose proof (N.mod_lt x 6 ltac:(lia)) as L.
  set (q := x / 6) in *. set (m := x mod 6) in *. clearbody q m.
  assert (C : m = 0 \/ m = 1 \/ m = 2 \/ m = 3 \/ m = 4 \/ m = 5) by lia.
  destruct C as [->|[->|[->|[->|[->| ->]]]]].
  - apply H2, Hd; [done|]. replace x with (3 * q * 2) by lia. by apply N.mod_mul.
  - destruct (trial_spec k 5 n (q - 1) Ht ltac:(lia)) as [_ H4].
    replace (5 + 6 * (q - 1) + 2) with x in H4 by (clear -E Hx; lia). exact (H4 H0).
  - apply H2, Hd; [done|]. replace x with ((3 * q + 1) * 2) by lia. by apply N.mod_mul.
  - apply H3, Hd; [done|]. replace x with ((2 * q + 1) * 3) by lia. by apply N.mod_mul.
  - apply H2, Hd; [done|]. replace x with ((3 * q + 2) * 2) by lia. by apply N.mod_mul.
  - destruct (trial_spec k 5 n q Ht ltac:(lia)) as [H4 _].
    replace (5 + 6 * q) with x in H4 by (clear -E Hx; lia). exact (H4 H0).
Qed.
Lemma prime_3 : prime (Z.of_N 3).
Proof. by apply is_prime_spec. Qed.
Lemma even_not_prime q : 2 < q -> prime (Z.of_N q) -> N.odd q = true.
Proof.
  intros H1 H2. destruct (N.odd q) eqn:E; [done|]. exfalso.
  rewrite <- N.negb_even, negb_false_iff in E. apply N.even_spec in E as [k Hk].
  rewrite <- prime_alt in H2. destruct H2 as [_ H2]. apply (H2 2%Z); [lia|].
  exists (Z.of_N k). lia.
Qed.

Lemma prime_loop_spec unit r : 0 < unit -> 3 <= r -> N.odd r = true ->
  exists p, prime_loop unit (unit * r) = Done (unit * p) /\ largest_prime_below (r + 1) p.
Proof.
  intros Hu Hr Ho.
  set (I := fun size => exists q, size = unit * q /\ 3 <= q <= r /\ N.odd q = true /\
    forall k, prime (Z.of_N k) -> k < r + 1 -> k <= q).
  assert (Hstep : forall s, I s -> match prime_step unit s with
    | inl s' => I s' /\ s' < s
    | inr o => exists p, o = Done (unit * p) /\ largest_prime_below (r + 1) p end).
  { intros s (q & -> & Hq & Hoq & Hk). unfold prime_step.
    rewrite N.mul_comm, N.div_mul by lia. destruct (is_prime q) eqn:E.
    - apply is_prime_spec in E. exists q. split; [f_equal; lia|]. split; [done|].
      split; [lia|done].
    - assert (q <> 3) as H3. { intros ->. by rewrite (proj2 (is_prime_spec 3) prime_3) in E. }
      assert (5 <= q) as H5.
      { destruct (N.eq_dec q 4) as [->|]; [done|]. lia. }
      unfold usub. destruct (N.ltb_spec (q * unit) (2 * unit)) as [H|H]; [nia|].
      split; [|nia]. exists (q - 2). split; [rewrite N.mul_sub_distr_l; f_equal; lia|].
      split; [lia|]. split.
      { rewrite N.odd_sub by lia. by rewrite Hoq. }
      intros k Hp Hkr. specialize (Hk k Hp Hkr).
      destruct (N.eq_dec k q) as [->|]; [by rewrite (proj2 (is_prime_spec q) Hp) in E|].
      destruct (N.eq_dec k (q - 1)) as [->|]; [|lia].
      pose proof (even_not_prime (q - 1) ltac:(lia) Hp) as H6.
      rewrite N.odd_sub in H6 by lia. by rewrite Hoq in H6. }
  assert (Hi : I (unit * r)).
  { exists r. split; [done|]. split; [lia|]. split; [done|]. intros. lia. }
  pose proof (loop_pos_spec (prime_step unit) (N.succ_pos (unit * r)) (unit * r)) as HL.
  unfold prime_loop. destruct (loop_pos _ _ _) as [s'|o] eqn:E.
  - exfalso. destruct (steps_measure (prime_step unit) I (fun s => s)) with (2 := Hi) (3 := HL)
      as [_ H].
    { intros s s1 H1 H2. specialize (Hstep s H1). by rewrite H2 in Hstep. }
    assert (N.of_nat (Pos.to_nat (N.succ_pos (unit * r))) = N.succ (unit * r)) as H2.
    { rewrite positive_nat_N. apply N.succ_pos_spec. }
    rewrite H2 in H. lia.
  - destruct HL as (n & s' & _ & H1 & H2).
    assert (I s') as Hs'.
    { eapply (steps_inv (prime_step unit) I); [|exact Hi|exact H1].
      intros s s1 H3 H4. specialize (Hstep s H3). rewrite H4 in Hstep. by destruct Hstep. }
    specialize (Hstep s' Hs'). rewrite H2 in Hstep. destruct Hstep as (p & -> & Hp). eauto.
Qed.

(** ** C60: the sizes of the cache and of the dataset *)
Theorem C60_cache_size n :
  exists p, cache_size n = Done (64 * p) /\
    largest_prime_below (262144 + 2048 * (n / 30000)) p.
Proof.
  unfold cache_size, epoch, EPOCH_SIZE. set (e := n / 30000).
  change INITIAL_CACHE_SIZE with 16777216. change CACHE_EPOCH_GROWTH_SIZE with 131072.
  change HASH_BYTES with 64. unfold usub.
  destruct (N.ltb_spec (16777216 + 131072 * e) 64) as [H|H]; [lia|]. cbn [obind].
  replace (16777216 + 131072 * e - 64) with (64 * (262143 + 2048 * e)) by lia.
  destruct (prime_loop_spec 64 (262143 + 2048 * e)) as (p & H1 & H2); [lia|lia| |].
  { rewrite N.odd_add. change (N.odd 262143) with true.
    rewrite N.odd_mul. done. }
  exists p. split; [done|]. by replace (262144 + 2048 * e) with (262143 + 2048 * e + 1) by lia.
Qed.
Theorem C60_dataset_size n :
  exists p, dataset_size n = Done (128 * p) /\
    largest_prime_below (8388608 + 65536 * (n / 30000)) p.
Proof.
  unfold dataset_size, epoch, EPOCH_SIZE. set (e := n / 30000).
  change INITIAL_DATASET_SIZE with 1073741824. change DATASET_EPOCH_GROWTH_SIZE with 8388608.
  change MIX_BYTES with 128. unfold usub.
  destruct (N.ltb_spec (1073741824 + 8388608 * e) 128) as [H|H]; [lia|]. cbn [obind].
  replace (1073741824 + 8388608 * e - 128) with (128 * (8388607 + 65536 * e)) by lia.
  destruct (prime_loop_spec 128 (8388607 + 65536 * e)) as (p & H1 & H2); [lia|lia| |].
  { rewrite N.odd_add. change (N.odd 8388607) with true. rewrite N.odd_mul. done. }
  exists p. split; [done|]. by replace (8388608 + 65536 * e) with (8388607 + 65536 * e + 1) by lia.
Qed.

(** The seed of the first epoch is zero; that of the next epoch is the hash of
    the one before. *)
Theorem C60_seed C n :
  (n < 30000 -> generate_seed C n = zeros 32) /\
  generate_seed C (n + 30000) = keccak256 C (generate_seed C n).
Proof.
  unfold generate_seed, epoch, EPOCH_SIZE. split.
  - intros H. by rewrite N.div_small.
  - replace (n + 30000) with (n + 1 * 30000) by lia. rewrite N.div_add by lia.
    by rewrite N.add_1_r, N.iter_succ.
Qed.
(** All of it depends on the epoch only. *)
Theorem C60_epoch C k512 n m : n / 30000 = m / 30000 ->
  generate_seed C n = generate_seed C m /\ cache_size n = cache_size m /\
  dataset_size n = dataset_size m /\ generate_cache C k512 n = generate_cache C k512 m /\
  generate_dataset C k512 n = generate_dataset C k512 m.
Proof.
  intros H. assert (E : epoch n = epoch m) by exact H.
  unfold generate_dataset, generate_cache, generate_seed, cache_size, dataset_size. by rewrite E.
Qed.

(** ** Words *)
Definition FNV (a b : N) : N := N.lxor (a * 16777619) b mod 2 ^ 32.
(** The number with the given 32-bit digits, least significant first *)
Fixpoint number_of_words (l : list N) : N :=
  match l with [] => 0 | w :: l => w + 2 ^ 32 * number_of_words l end.
Definition small (l : list N) : Prop := Forall (fun w => w < 2 ^ 32) l.

Lemma fnv_FNV a b : fnv a b = FNV a b.
Proof. unfold fnv, FNV. change (2 ^ 32 - 1) with (N.ones 32). by rewrite N.land_ones. Qed.
Lemma FNV_lt a b : FNV a b < 2 ^ 32.
Proof. apply N.mod_lt. done. Qed.
Lemma word32_lt b i : word32 b i < 2 ^ 32.
Proof. apply (little_endian_lt b 4). Qed.

Lemma le_words b n : lenN b = 4 * n -> words_of b n (le_bytes_to_uint32_sequence b).
Proof.
  intros H. unfold le_bytes_to_uint32_sequence.
  assert ((lenN b + 3) / 4 = n) as ->.
  { rewrite H. replace (4 * n + 3) with (3 + n * 4) by lia. by rewrite N.div_add. }
  split. { unfold lenN. rewrite map_length. change (lenN (range 0 n) = n). rewrite range_len. lia. }
  intros k Hk. unfold word. apply nth_error_nth. rewrite nth_error_map, range_nth by done. cbn [option_map].
  f_equal. unfold sliceN, word32. rewrite <- (little_endian_eq b 4) by lia.
  f_equal. f_equal. lia.
Qed.
Lemma words_small b n l : words_of b n l -> small l.
Proof.
  intros [H1 H2]. apply Forall_forall. intros x Hx%elem_of_list_In.
  apply (In_nth _ _ 0) in Hx as (k & Hk & <-). specialize (H2 (N.of_nat k)).
  unfold word in H2. rewrite Nat2N.id in H2. rewrite H2 by (unfold lenN in H1; lia).
  apply word32_lt.
Qed.
Lemma small_word l k : small l -> word l k < 2 ^ 32.
Proof.
  intros H. unfold word. destruct (nth_in_or_default (N.to_nat k) l 0) as [H1| ->]; [|done].
  eapply Forall_forall in H; [exact H|]. by apply elem_of_list_In.
Qed.

Lemma le4_len w : lenN (to_le_bytes4 w) = 4.
Proof. unfold to_le_bytes4, lenN. rewrite rev_length. change (lenN (to_be_fixed 4 w) = 4).
  by rewrite to_be_fixed_len. Qed.
Lemma le4_value w : w < 2 ^ 32 -> from_le_bytes (to_le_bytes4 w) = w.
Proof.
  intros H. unfold from_le_bytes, to_le_bytes4. rewrite rev_involutive, from_to_be_fixed.
  change (256 ^ N.of_nat 4) with (2 ^ 32). by apply N.mod_small.
Qed.
Lemma seq_bytes_len l : lenN (le_uint32_sequence_to_bytes l) = 4 * lenN l.
Proof.
  unfold le_uint32_sequence_to_bytes. induction l as [|w l IH]; [done|]. cbn [map concat].
  rewrite lenN_app, le4_len, IH. unfold lenN. cbn [length]. lia.
Qed.
Lemma seq_bytes_words l : small l -> words_of (le_uint32_sequence_to_bytes l) (lenN l) l.
Proof.
  intros H. split; [done|]. induction H as [|w l Hw Hl IH]; intros k Hk.
  { unfold lenN in Hk. cbn in Hk. lia. }
  assert (E : le_uint32_sequence_to_bytes (w :: l)
    = to_le_bytes4 w ++ le_uint32_sequence_to_bytes l) by done.
  unfold word32. rewrite <- (little_endian_eq _ 4).
  2:{ rewrite seq_bytes_len. lia. }
  rewrite E. destruct (N.eq_dec k 0) as [->|Hk0].
  - rewrite dropN_0, takeN_app_exact by (by rewrite le4_len). by rewrite le4_value.
  - replace (4 * k) with (4 + 4 * (k - 1)) by lia. rewrite dropN_add.
    rewrite dropN_app_exact by (by rewrite le4_len).
    assert (k - 1 < lenN l) as Hk1 by (unfold lenN in *; cbn in Hk; lia).
    rewrite (little_endian_eq _ 4) by (rewrite seq_bytes_len; lia).
    specialize (IH _ Hk1). unfold word32 in IH. rewrite <- IH.
    unfold word. replace (N.to_nat k) with (S (N.to_nat (k - 1))) by lia.
    done.
Qed.
Lemma from_le_app a b : from_le_bytes (a ++ b) = from_le_bytes a + 256 ^ lenN a * from_le_bytes b.
Proof.
  unfold from_le_bytes. rewrite rev_app_distr, from_be_app.
  replace (lenN (rev a)) with (lenN a) by (unfold lenN; by rewrite rev_length). lia.
Qed.
Lemma seq_value l : small l -> le_uint32_sequence_to_uint l = number_of_words l.
Proof.
  unfold le_uint32_sequence_to_uint. induction 1 as [|w l Hw Hl IH]; [done|].
  change (le_uint32_sequence_to_bytes (w :: l))
    with (to_le_bytes4 w ++ le_uint32_sequence_to_bytes l).
  rewrite from_le_app, le4_len, le4_value, IH by done. done.
Qed.
Lemma number_lt l : small l -> number_of_words l < 2 ^ (32 * lenN l).
Proof.
  induction 1 as [|w l Hw Hl IH]; [done|]. cbn [number_of_words].
  replace (32 * lenN (w :: l)) with (32 + 32 * lenN l) by (unfold lenN; cbn [length]; lia).
  rewrite N.pow_add_r. revert IH. generalize (2 ^ (32 * lenN l)) as y. intros. nia.
Qed.
Lemma words_unique b n l l' : words_of b n l -> words_of b n l' -> l = l'.
Proof.
  intros [H1 H2] [H3 H4]. apply (nth_ext _ _ 0 0); [unfold lenN in *; lia|].
  intros k Hk. specialize (H2 (N.of_nat k)). specialize (H4 (N.of_nat k)).
  unfold word in *. rewrite Nat2N.id in *. rewrite H2, H4; [done|unfold lenN in *; lia..].
Qed.

(** Byte strings and sequences of words correspond. *)
Theorem C60_words b l :
  (lenN b mod 4 = 0 -> le_uint32_sequence_to_bytes (le_bytes_to_uint32_sequence b) = b) /\
  (small l -> le_bytes_to_uint32_sequence (le_uint32_sequence_to_bytes l) = l) /\
  (small l -> le_uint32_sequence_to_uint l = number_of_words l).
Proof.
  split; [|split; [|apply seq_value]].
  - intros H. pose proof (N.div_mod (lenN b) 4 ltac:(lia)) as Hd. rewrite H in Hd.
    set (n := lenN b / 4) in *. clearbody n. clear H.
    revert b Hd. induction n as [|n IH] using N.peano_ind; intros b Hd.
    { destruct b as [|x b]; [done|]. unfold lenN in Hd. cbn [length] in Hd. lia. }
    destruct (le_words b (N.succ n)) as [H1 H2]; [lia|].
    assert (exists b1 b2, b = b1 ++ b2 /\ lenN b1 = 4) as (b1 & b2 & -> & Hb1).
    { exists (takeN 4 b), (dropN 4 b). rewrite takeN_dropN, lenN_takeN. split; [done|lia]. }
    rewrite lenN_app in Hd.
    assert (le_bytes_to_uint32_sequence (b1 ++ b2)
      = from_le_bytes b1 :: le_bytes_to_uint32_sequence b2) as E.
    { apply (words_unique (b1 ++ b2) (N.succ n)); [done|].
      destruct (le_words b2 n) as [H3 H4]; [lia|]. split.
      { unfold lenN in *. cbn [length]. lia. }
      intros k Hk. unfold word32. rewrite <- (little_endian_eq _ 4) by (rewrite lenN_app; lia).
      change (N.of_nat 4) with 4.
      destruct (N.eq_dec k 0) as [->|Hk0].
      - by rewrite dropN_0, takeN_app_exact by lia.
      - replace (4 * k) with (4 + 4 * (k - 1)) by lia. rewrite dropN_add.
        rewrite dropN_app_exact by lia.
        rewrite (little_endian_eq _ 4) by lia.
        specialize (H4 (k - 1) ltac:(lia)). unfold word32 in H4. rewrite <- H4.
        unfold word. by replace (N.to_nat k) with (S (N.to_nat (k - 1))) by lia. }
    rewrite E. unfold le_uint32_sequence_to_bytes in *. cbn [map concat].
    rewrite IH by lia. f_equal. unfold to_le_bytes4, from_le_bytes.
    assert (4%nat = length (rev b1)) as -> by (rewrite rev_length; unfold lenN in Hb1; lia).
    by rewrite to_from_be_fixed, rev_involutive.
  - intros H. apply (words_unique (le_uint32_sequence_to_bytes l) (lenN l)).
    + apply le_words, seq_bytes_len.
    + by apply seq_bytes_words.
Qed.

(** [fnv] is injective in each argument. *)
Theorem C61_fnv a a' b b' : a < 2 ^ 32 -> a' < 2 ^ 32 -> b < 2 ^ 32 -> b' < 2 ^ 32 ->
  (fnv a b = fnv a b' -> b = b') /\ (fnv a b = fnv a' b -> a = a').
Proof.
  intros Ha Ha' Hb Hb'. rewrite !fnv_FNV. unfold FNV.
  assert (Hx : forall x y, N.lxor x y mod 2 ^ 32 = N.lxor (x mod 2 ^ 32) (y mod 2 ^ 32)).
  { intros x y. rewrite <- !N.land_ones. apply N.bits_inj. intros k.
    rewrite N.lxor_spec, !N.land_spec, N.lxor_spec. by destruct (N.testbit x k), (N.testbit y k),
      (N.testbit (N.ones 32) k). }
  rewrite !Hx, (N.mod_small b), (N.mod_small b') by done.
  assert (Hc : forall x y z, N.lxor x y = N.lxor x z -> y = z).
  { intros x y z H. apply (f_equal (N.lxor x)) in H.
    by rewrite <- !N.lxor_assoc, N.lxor_nilpotent, !N.lxor_0_l in H. }
  split; [apply Hc|]. intros H. rewrite !(N.lxor_comm _ b) in H. apply Hc in H.
  assert (Hi : forall x, x < 2 ^ 32 -> ((x * 16777619) mod 2 ^ 32 * 899433627) mod 2 ^ 32 = x).
  { intros x Hx'. rewrite N.mul_mod_idemp_l by done.
    replace (x * 16777619 * 899433627) with (x + (x * 3513497) * 2 ^ 32) by lia.
    rewrite N.mod_add by done. by apply N.mod_small. }
  rewrite <- (Hi a Ha), <- (Hi a' Ha'), H. done.
Qed.

(** ** C61: the cache, the dataset and the proof-of-work function

    The definitions below follow the appendix on Ethash of the Yellow Paper. *)

(** [z] is the bitwise exclusive or of two strings of 64 bytes. *)
Definition xor_of (x y z : bytes) : Prop :=
  lenN z = 64 /\ forall k, k < 64 -> byte_at z k = N.lxor (byte_at x k) (byte_at y k).

(** The rows [R r i] of a cache of [n] rows after [r] rounds: the first ones
    are a chain of hashes; in a round each row is replaced by the hash of the
    exclusive or of the row before it (cyclically) and the row its first word
    points to, each in its newest version. *)
Definition cache_rows (k512 : bytes -> bytes) (seed : bytes) (n : N) (R : N -> N -> bytes) : Prop :=
  R 0 0 = k512 seed /\
  (forall i, i + 1 < n -> R 0 (i + 1) = k512 (R 0 i)) /\
  forall r i, r < 3 -> i < n ->
    let j := word32 (R r i) 0 mod n in
    let before := if i =? 0 then R r (n - 1) else R (r + 1) (i - 1) in
    let other := if j <? i then R (r + 1) j else R r j in
    exists z, xor_of before other z /\ R (r + 1) i = k512 z.

(** Item [i] of the dataset: 256 rows of the cache are mixed, one after the
    other, into the hash of row [i] (cyclically) changed by [i]. *)
Definition item_of (k512 : bytes -> bytes) (cache : list (list N)) (i : N) (d : bytes) : Prop :=
  let n := lenN cache in
  exists (b f : bytes) (m : N -> list N),
    lenN b = 64 /\
    little_endian b 0 64 = N.lxor (number_of_words (row cache (i mod n))) i /\
    words_of (k512 b) 16 (m 0) /\
    (forall j, j < 256 ->
       let parent := FNV (N.lxor i j) (word (m j) (j mod 16)) mod n in
       lenN (m (j + 1)) = 16 /\
       forall k, k < 16 -> word (m (j + 1)) k = FNV (word (m j) k) (word (row cache parent) k)) /\
    lenN f = 64 /\ words_of f 16 (m 256) /\ d = k512 f.

(** The mix digest and the result of a header hash and a nonce, over a dataset
    of [2 * rows] items: 64 pairs of neighbouring items are mixed into the hash
    of the two, and the result is compressed to 8 words. *)
Definition hashimoto_of (k256 k512 : bytes -> bytes) (header_hash nonce : bytes) (rows : N)
    (item : N -> bytes) (digest result : bytes) : Prop :=
  let s := k512 (header_hash ++ rev nonce) in
  exists m : N -> list N,
    lenN (m 0) = 32 /\ (forall k, k < 32 -> word (m 0) k = word32 s (k mod 16)) /\
    (forall i, i < 64 ->
       let p := FNV (N.lxor i (word32 s 0)) (word (m i) (i mod 32)) mod rows in
       lenN (m (i + 1)) = 32 /\
       forall k, k < 32 ->
         word (m (i + 1)) k = FNV (word (m i) k) (word32 (item (2 * p + k / 16)) (k mod 16))) /\
    lenN digest = 32 /\
    (forall k, k < 8 -> word32 digest k =
       FNV (FNV (FNV (word (m 64) (4 * k)) (word (m 64) (4 * k + 1))) (word (m 64) (4 * k + 2)))
         (word (m 64) (4 * k + 3))) /\
    result = k256 (s ++ digest).

(** A table of [n] rows of 16 words *)
Definition table (n : N) (t : list (list N)) : Prop :=
  lenN t = n /\ Forall (fun r => lenN r = 16 /\ small r) t.

Lemma table_row n t i : table n t -> i < n ->
  index t i = Done (row t i) /\ lenN (row t i) = 16 /\ small (row t i).
Proof.
  intros [H1 H2] Hi. split; [apply index_at; lia|].
  eapply Forall_forall in H2; [exact H2|]. apply elem_of_list_In, nth_In. unfold lenN in H1. lia.
Qed.
Lemma index_word l i : i < lenN l -> index l i = Done (word l i).
Proof. apply index_at. Qed.

Lemma fnv_hash_spec mix data : lenN mix <= lenN data ->
  exists r, fnv_hash mix data = Done r /\ lenN r = lenN mix /\ small r /\
    forall k, k < lenN mix -> word r k = FNV (word mix k) (word data k).
Proof.
  intros H. unfold fnv_hash.
  destruct (collect_range (fun i => a <~ index mix i ;; b <~ index data i ;; Done (fnv a b))
    (fun i y => y = FNV (word mix i) (word data i)) (lenN mix) 0) as (r & H1 & H2 & H3).
  { intros i Hi. rewrite !index_word by lia. cbn [obind]. rewrite fnv_FNV. eauto. }
  exists r. split; [done|]. split; [done|]. split; [|done].
  apply Forall_forall. intros x Hx%elem_of_list_In.
  apply (In_nth _ _ 0) in Hx as (k & Hk & <-). specialize (H3 (N.of_nat k)).
  rewrite Nat2N.id in H3. rewrite H3 by (unfold lenN in *; lia). apply FNV_lt.
Qed.

Lemma assign_spec {A} (l : list A) i x d : i < lenN l ->
  exists l', assign l i x = Done l' /\ lenN l' = lenN l /\ nth (N.to_nat i) l' d = x /\
    forall j, j <> i -> nth (N.to_nat j) l' d = nth (N.to_nat j) l d.
Proof.
  intros H. unfold assign. rewrite (proj2 (N.ltb_lt _ _) H). eexists. split; [done|].
  split; [unfold lenN; by rewrite insert_length|].
  assert (forall (l : list A) k, nth k l d = default d (l !! k)) as Hn.
  { intros l0 k. destruct (l0 !! k) as [y|] eqn:E.
    - apply nth_lookup_Some with (d := d) in E. done.
    - cbn. apply nth_overflow. by apply lookup_ge_None in E. }
  split.
  - rewrite Hn, list_lookup_insert; [done|]. unfold lenN in H. lia.
  - intros j Hj. rewrite !Hn, list_lookup_insert_ne; [done|]. lia.
Qed.

Lemma xor_bytes_spec x y : lenN x = 64 -> lenN y = 64 -> xor_of x y (xor_bytes x y).
Proof.
  intros Hx Hy. unfold xor_of, xor_bytes. split.
  { unfold lenN in *. rewrite zip_with_length. lia. }
  intros k Hk. unfold byte_at.
  assert (N.to_nat k < length x)%nat as H1 by (unfold lenN in Hx; lia).
  assert (N.to_nat k < length y)%nat as H2 by (unfold lenN in Hy; lia).
  revert H1 H2. generalize (N.to_nat k) as n. clear. revert y.
  induction x as [|a x IH]; intros [|b y] n H1 H2; try (cbn in *; lia).
  destruct n as [|n]; [|cbn [nth_error zip_with]; apply IH; cbn in *; lia].
  cbn [nth_error zip_with].
  apply byte_of_N_to_N.
  apply (N.lt_le_trans _ (2 ^ 8)); [|done].
  destruct (N.eq_dec (N.lxor (Byte.to_N a) (Byte.to_N b)) 0) as [E|Hn]; [by rewrite E|].
  apply N.log2_lt_pow2; [lia|]. eapply N.le_lt_trans; [apply N.log2_lxor|].
  assert (forall c, N.log2 (Byte.to_N c) < 8) as Hc.
  { intros c. destruct (N.eq_dec (Byte.to_N c) 0) as [E|H]; [by rewrite E|].
    apply N.log2_lt_pow2; [lia|]. apply byte_to_N_lt. }
  apply N.max_lub_lt; apply Hc.
Qed.

Section cache.
  Context (C : crypto) (k512 : bytes -> bytes) (H64 : digests64 k512).

  (** A list of [n] strings of 64 bytes *)
  Let strings (n : N) (l : list bytes) : Prop := lenN l = n /\ forall i, i < n -> lenN (row l i) = 64.

  Lemma fill_spec seed n : 1 <= n ->
    exists l, fill_cache k512 seed n = Done l /\ strings n l /\ row l 0 = k512 seed /\
      forall i, i + 1 < n -> row l (i + 1) = k512 (row l i).
  Proof using H64.
    intros Hn. unfold fill_cache.
    destruct (for_range (fun i l => strings i l /\ row l 0 = k512 seed /\
      forall j, j + 1 < i -> row l (j + 1) = k512 (row l j))
      (fun cache i => previous <~ index cache (i - 1) ;; Done (cache ++ [k512 previous]))
      1 n [k512 seed]) as (l & H1 & H2).
    { done. }
    { split; [|split; [done|intros; lia]]. split; [done|].
      intros i Hi. assert (i = 0) as -> by lia. apply H64. }
    { intros i l Hi ((Hl & Hr) & H0 & Hs).
      rewrite (index_at _ _ []) by lia. cbn [obind]. eexists. split; [done|].
      fold (row l (i - 1)). set (x := k512 (row l (i - 1))).
      assert (Hold : forall j, j < i -> row (l ++ [x]) j = row l j).
      { intros j Hj. unfold row. rewrite app_nth1; [done|]. unfold lenN in Hl. lia. }
      assert (Hnew : row (l ++ [x]) i = x).
      { unfold row. rewrite app_nth2; unfold lenN in Hl; [|lia].
        by replace (N.to_nat i - length l)%nat with 0%nat by lia. }
      split; [split|split].
      - rewrite lenN_app, Hl. done.
      - intros j Hj. destruct (N.eq_dec j i) as [->|]; [rewrite Hnew; apply H64|].
        rewrite Hold by lia. apply Hr. lia.
      - rewrite Hold by lia. done.
      - intros j Hj. destruct (N.eq_dec (j + 1) i) as [E|].
        + rewrite E, Hnew, Hold by lia. unfold x. do 2 f_equal. lia.
        + rewrite !Hold by lia. apply Hs. lia. }
    exists l. split; [done|]. destruct H2 as (H3 & H4 & H5). done.
  Qed.

  (** What a round does to the rows [l], with result [l'] *)
  Let round_row (n : N) (l l' : list bytes) (i : N) : Prop :=
    let j := word32 (row l i) 0 mod n in
    exists z,
      xor_of (if i =? 0 then row l (n - 1) else row l' (i - 1))
        (if j <? i then row l' j else row l j) z /\
      row l' i = k512 z.

  Lemma head_word b : lenN b = 64 -> from_le_bytes (takeN 4 b) = word32 b 0.
  Proof using Type.
    intros H. unfold word32. change (4 * 0) with 0. rewrite <- (little_endian_eq b 4) by lia.
    by rewrite dropN_0.
  Qed.

  Lemma round_spec n l : 2 <= n < 2 ^ 32 -> strings n l ->
    exists l', cache_round k512 n l = Done l' /\ strings n l' /\
      forall i, i < n -> round_row n l l' i.
  Proof using H64.
    intros Hn Hl. unfold cache_round.
    destruct (for_range (fun i c => strings n c /\ (forall k, k < i -> round_row n l c k) /\
      (forall k, i <= k < n -> row c k = row l k)) (cache_step k512 n) 0 n l) as (l' & H1 & H2).
    { lia. }
    { split; [done|]. split; [intros; lia|done]. }
    { intros i c Hi ((Hc & H64c) & Hdone & Hrest).
      unfold cache_step. rewrite umod_pos by lia. cbn [obind].
      set (b := (i + n - 1) mod n).
      assert (Hb : b < n) by (apply N.mod_lt; lia).
      assert (Hbi : b = if i =? 0 then n - 1 else i - 1).
      { unfold b. destruct (N.eqb_spec i 0) as [->|].
        - replace (0 + n - 1) with (n - 1) by lia. apply N.mod_small. lia.
        - replace (i + n - 1) with (i - 1 + 1 * n) by lia. rewrite N.mod_add by lia.
          apply N.mod_small. lia. }
      rewrite (index_at c b []), (index_at c i []) by lia. cbn [obind].
      rewrite u32_small by lia. cbn [obind]. rewrite umod_pos by lia. cbn [obind].
      fold (row c b) (row c i). rewrite head_word by (apply H64c; lia).
      set (j := word32 (row c i) 0 mod n).
      assert (Hj : j < n) by (apply N.mod_lt; lia).
      rewrite (index_at c j []) by lia. cbn [obind]. fold (row c j).
      destruct (assign_spec c i (k512 (xor_bytes (row c b) (row c j))) []) as (c' & E & Hlen & Hi' & Ho).
      { lia. }
      exists c'. split; [done|]. change (row c' i = k512 (xor_bytes (row c b) (row c j))) in Hi'.
      assert (Ho' : forall k, k <> i -> row c' k = row c k) by exact Ho. clear Ho.
      split; [split|split].
      - lia.
      - intros k Hk. destruct (N.eq_dec k i) as [->|Hne]; [rewrite Hi'; apply H64|].
        rewrite Ho' by done. by apply H64c.
      - intros k Hk. destruct (N.eq_dec k i) as [->|Hne].
        + exists (xor_bytes (row c b) (row c j)). split; [|done].
          replace (row l i) with (row c i) by (apply Hrest; lia).
          fold j.
          replace (if i =? 0 then row l (n - 1) else row c' (i - 1)) with (row c b).
          2:{ rewrite Hbi. destruct (N.eqb_spec i 0) as [->|]; [apply Hrest; lia|].
              rewrite Ho' by lia. done. }
          replace (if j <? i then row c' j else row l j) with (row c j).
          2:{ destruct (N.ltb_spec j i); [rewrite Ho' by lia; done|]. apply Hrest. lia. }
          apply xor_bytes_spec; apply H64c; lia.
        + destruct (Hdone k) as (z & Hz & Hk'); [lia|]. exists z.
          rewrite (Ho' k Hne). split; [|done]. revert Hz.
          destruct (N.eqb_spec k 0) as [->|].
          * by destruct (N.ltb_spec (word32 (row l 0) 0 mod n) 0); [lia|].
          * rewrite (Ho' (k - 1)) by lia.
            generalize (word32 (row l k) 0 mod n) as y. intros y.
            destruct (N.ltb_spec y k); [|done]. rewrite (Ho' y); [done|lia].
      - intros k Hk. rewrite Ho' by lia. apply Hrest. lia. }
    exists l'. split; [done|]. destruct H2 as (H2 & H3 & _). done.
  Qed.

  Lemma cache_spec n : 62910750000 > n ->
    exists p R cache, cache_size n = Done (64 * p) /\ p < 2 ^ 32 /\ 2 <= p /\
      generate_cache C k512 n = Done cache /\ table p cache /\
      cache_rows k512 (generate_seed C n) p R /\
      forall i, i < p -> words_of (R 3 i) 16 (row cache i).
  Proof using H64.
    intros Hn. destruct (C60_cache_size n) as (p & Hp & Hprime & Hlt & _).
    assert (n / 30000 < 2097025) as He.
    { apply N.div_lt_upper_bound; lia. }
    assert (p < 2 ^ 32) as Hp32.
    { change (2 ^ 32) with 4294967296. generalize dependent (n / 30000). intros. lia. }
    assert (2 <= p) as Hp2. { destruct Hprime as [H _]. lia. }
    unfold generate_cache. rewrite Hp. cbn [obind].
    replace (64 * p / HASH_BYTES) with p.
    2:{ change HASH_BYTES with 64. rewrite N.mul_comm, N.div_mul by lia. done. }
    destruct (fill_spec (generate_seed C n) p) as (l0 & Hfill & Hs0 & H0 & Hchain); [lia|].
    rewrite Hfill. cbn [obind].
    destruct (for_trace (fun _ l => strings p l) (fun cache _ => cache_round k512 p cache)
      0 CACHE_ROUNDS l0) as (m & Hm0 & Hloop & Hinv & Hsteps).
    { done. } { done. }
    { intros i l Hi Hl. destruct (round_spec p l) as (l' & H1 & H2 & _); [lia|done|]. eauto. }
    rewrite Hloop. cbn [obind]. change CACHE_ROUNDS with 3 in *.
    exists p, (fun r i => row (m r) i), (map le_bytes_to_uint32_sequence (m 3)).
    split; [done|]. split; [done|]. split; [done|]. split; [done|].
    destruct (Hinv 3) as [Hl3 H643]; [lia|].
    assert (Hrow : forall i, i < p ->
      row (map le_bytes_to_uint32_sequence (m 3)) i = le_bytes_to_uint32_sequence (row (m 3) i)).
    { intros i Hi. unfold row. change (@nil N) with (le_bytes_to_uint32_sequence []).
      apply map_nth. }
    split; [|split].
    - split. { unfold lenN in *. by rewrite map_length. }
      apply Forall_forall. intros x Hx%elem_of_list_In.
      apply in_map_iff in Hx as (y & <- & Hy). apply (In_nth _ _ []) in Hy as (k & Hk & <-).
      assert (words_of (nth k (m 3) []) 16 (le_bytes_to_uint32_sequence (nth k (m 3) []))) as Hw.
      { apply le_words. specialize (H643 (N.of_nat k)). unfold row in H643.
        rewrite Nat2N.id in H643. rewrite H643; [done|]. unfold lenN in Hl3. lia. }
      split; [apply Hw|]. by eapply words_small.
    - split; [by rewrite Hm0|]. split; [by rewrite Hm0|].
      intros r i Hr Hi. destruct (Hinv r) as [Hlr H64r]; [lia|].
      destruct (round_spec p (m r)) as (l' & H1 & H2 & H3); [lia|done|].
      rewrite (Hsteps r) in H1 by lia. injection H1 as H1. rewrite <- H1 in H3.
      exact (H3 i Hi).
    - intros i Hi. rewrite Hrow by done. apply le_words. by rewrite H643.
  Qed.
End cache.

Lemma lxor_lt a b n : a < 2 ^ n -> b < 2 ^ n -> N.lxor a b < 2 ^ n.
Proof.
  intros Ha Hb. destruct (N.eq_dec (N.lxor a b) 0) as [E|E]; [rewrite E; lia|].
  apply N.log2_lt_pow2; [lia|]. eapply N.le_lt_trans; [apply N.log2_lxor|].
  assert (forall c, c < 2 ^ n -> N.log2 c < n \/ c = 0) as Hc.
  { intros c H. destruct (N.eq_dec c 0); [by right|left]. apply N.log2_lt_pow2; [lia|done]. }
  destruct (Hc a Ha) as [H1| ->], (Hc b Hb) as [H2| ->]; try (by rewrite N.lxor_nilpotent in E);
    change (N.log2 0) with 0; lia.
Qed.

Section items.
  Context (C : crypto) (k512 : bytes -> bytes) (H64 : digests64 k512).

  Lemma item_spec n cache i : table n cache -> 0 < n < 2 ^ 32 -> i < 2 ^ 512 ->
    exists d, generate_dataset_item k512 cache i = Done d /\ item_of k512 cache i d /\ lenN d = 64.
  Proof using H64.
    intros Ht Hn Hi. unfold generate_dataset_item. assert (Hlen : lenN cache = n) by apply Ht.
    rewrite Hlen, umod_pos by lia. cbn [obind].
    destruct (table_row n cache (i mod n) Ht) as (Hr & Hr1 & Hr2); [apply N.mod_lt; lia|].
    rewrite Hr. cbn [obind]. rewrite seq_value by done.
    set (x := N.lxor (number_of_words (row cache (i mod n))) i).
    assert (Hx : x < 2 ^ 512).
    { apply lxor_lt; [|done]. pose proof (number_lt _ Hr2) as H. by rewrite Hr1 in H. }
    unfold to_le_bytes64. rewrite (proj2 (N.ltb_lt _ _) Hx). cbn [obind].
    set (b := rev (to_be_fixed 64 x)).
    assert (Hb : lenN b = 64).
    { unfold b, lenN. rewrite rev_length. change (lenN (to_be_fixed 64 x) = 64).
      by rewrite to_be_fixed_len. }
    assert (Hbx : little_endian b 0 64 = x).
    { rewrite <- (little_endian_eq b 64) by lia. rewrite dropN_0, takeN_all by lia.
      unfold b, from_le_bytes. rewrite rev_involutive, from_to_be_fixed.
      apply N.mod_small. exact Hx. }
    assert (Hw : words_of (k512 b) 16 (le_bytes_to_uint32_sequence (k512 b))).
    { apply le_words. by rewrite H64. }
    destruct (for_trace (fun _ m => lenN m = 16 /\ small m) (dataset_parent cache i) 0
      DATASET_PARENTS (le_bytes_to_uint32_sequence (k512 b))) as (m & Hm0 & Hloop & Hinv & Hstep).
    { done. }
    { split; [apply Hw|]. by eapply words_small. }
    { intros j mj Hj [Hl Hs]. unfold dataset_parent.
      assert (j mod 16 < 16) by (by apply N.mod_lt).
      rewrite index_word by lia. cbn [obind]. rewrite Hlen, u32_small by lia. cbn [obind].
      rewrite umod_pos by lia. cbn [obind].
      edestruct (table_row n cache) as (Hp & Hp1 & Hp2); [done|apply N.mod_lt; lia|].
      rewrite Hp. cbn [obind].
      edestruct fnv_hash_spec as (r & E & E1 & E2 & _); [|rewrite E; exists r].
      { rewrite Hp1, Hl. done. }
      split; [done|]. split; [congruence|done]. }
    rewrite Hloop. cbn [obind]. change DATASET_PARENTS with 256 in *.
    destruct (Hinv 256) as [Hl256 Hs256]; [lia|].
    eexists. split; [done|]. split; [|apply H64].
    exists b, (le_uint32_sequence_to_bytes (m 256)), m.
    split; [done|]. split; [by rewrite Hlen|]. split; [by rewrite Hm0|]. split; [|split; [|split]].
    - intros j Hj. destruct (Hinv j) as [Hl Hs]; [lia|]. specialize (Hstep j ltac:(lia)).
      unfold dataset_parent in Hstep.
      assert (j mod 16 < 16) by (by apply N.mod_lt).
      rewrite index_word in Hstep by lia. cbn [obind] in Hstep.
      rewrite Hlen, u32_small in Hstep by lia. cbn [obind] in Hstep.
      rewrite umod_pos in Hstep by lia. cbn [obind] in Hstep. rewrite fnv_FNV in Hstep.
      rewrite Hlen. set (q := FNV _ _ mod n) in *.
      destruct (table_row n cache q) as (Hp & Hp1 & Hp2); [done|apply N.mod_lt; lia|].
      rewrite Hp in Hstep. cbn [obind] in Hstep.
      destruct (fnv_hash_spec (m j) (row cache q)) as (r & E & E1 & E2 & E3); [lia|].
      rewrite E in Hstep. injection Hstep as <-. split; [lia|].
      intros k Hk. apply E3. lia.
    - rewrite seq_bytes_len. lia.
    - rewrite <- Hl256. by apply seq_bytes_words.
    - done.
  Qed.

  Lemma item_unique cache i d d' : item_of k512 cache i d -> generate_dataset_item k512 cache i = Done d' ->
    table (lenN cache) cache -> 0 < lenN cache < 2 ^ 32 -> i < 2 ^ 512 -> d = d'.
  Proof using H64.
    intros (b & f & m & Hb & Hbx & Hw & Hs & Hf & Hfm & ->) Hd Ht Hn Hi.
    destruct (item_spec (lenN cache) cache i Ht Hn Hi)
      as (d1 & H1 & (b1 & f1 & m1 & Hb1 & Hbx1 & Hw1 & Hs1 & Hf1 & Hfm1 & ->) & _).
    assert (d' = k512 f1) as -> by congruence. f_equal.
    assert (b = b1) as <-.
    { rewrite <- Hbx1 in Hbx. rewrite <- !(little_endian_eq _ 64) in Hbx by lia.
      rewrite !dropN_0, !takeN_all in Hbx by lia. unfold from_le_bytes in Hbx.
      apply from_be_inj in Hbx; [|rewrite !rev_length; unfold lenN in *; lia].
      rewrite <- (rev_involutive b), Hbx. apply rev_involutive. }
    assert (Hm : forall j, j <= 256 -> m j = m1 j).
    { induction j as [|j IH] using N.peano_ind; intros Hj.
      - eapply words_unique; done.
      - rewrite <- N.add_1_r. destruct (Hs j) as [A1 A2]; [lia|]. destruct (Hs1 j) as [B1 B2]; [lia|].
        apply (nth_ext _ _ 0 0); [unfold lenN in *; lia|]. intros k Hk.
        specialize (A2 (N.of_nat k)). specialize (B2 (N.of_nat k)).
        unfold word in *. rewrite Nat2N.id in *. rewrite A2, B2, IH; [done|unfold lenN in *; lia..]. }
    rewrite Hm in Hfm by lia.
    destruct (C60_words f []) as (R1 & _). destruct (C60_words f1 []) as (R2 & _).
    rewrite <- R1, <- R2 by (rewrite ?Hf, ?Hf1; done). f_equal.
    assert (le_bytes_to_uint32_sequence f = m1 256) as ->.
    { apply (words_unique f 16); [by apply le_words|done]. }
    symmetry. apply (words_unique f1 16); [by apply le_words|done].
  Qed.

  (** One access *)
  Lemma access_spec fetch (item : N -> bytes) head rows mix i :
    (forall k, k < 2 * rows -> lenN (item k) = 64 /\
       fetch k = Done (le_bytes_to_uint32_sequence (item k))) ->
    0 < rows < 2 ^ 32 -> lenN mix = 32 ->
    let p := FNV (N.lxor i head) (word mix (i mod 32)) mod rows in
    exists r, hashimoto_access fetch head rows mix i = Done r /\ lenN r = 32 /\ small r /\
      forall k, k < 32 -> word r k = FNV (word mix k) (word32 (item (2 * p + k / 16)) (k mod 16)).
  Proof using Type.
    intros Hf Hrows Hmix p. unfold hashimoto_access. rewrite Hmix.
    rewrite umod_pos by lia. cbn [obind]. assert (i mod 32 < 32) by (by apply N.mod_lt).
    rewrite index_word by lia. cbn [obind]. rewrite u32_small by lia. cbn [obind].
    rewrite umod_pos by lia. cbn [obind]. rewrite fnv_FNV. fold p.
    assert (Hp : p < rows) by (apply N.mod_lt; lia).
    change (range 0 (MIX_BYTES / HASH_BYTES)) with [0; 1]. cbn [for_loop].
    destruct (Hf (2 * p + 0)) as [L0 F0]; [lia|]. destruct (Hf (2 * p + 1)) as [L1 F1]; [lia|].
    rewrite F0. cbn [obind]. rewrite F1. cbn [obind app].
    destruct (le_words (item (2 * p + 0)) 16) as [A1 A2]; [lia|].
    destruct (le_words (item (2 * p + 1)) 16) as [B1 B2]; [lia|].
    edestruct (fnv_hash_spec mix) as (r & E & E1 & E2 & E3); [|rewrite E; exists r].
    { rewrite lenN_app, A1, B1, Hmix. done. }
    split; [done|]. split; [lia|]. split; [done|].
    intros k Hk. rewrite E3 by lia. f_equal. unfold word in *. destruct (N.lt_ge_cases k 16) as [Hk1|Hk1].
    - rewrite app_nth1 by (unfold lenN in A1; lia). rewrite A2 by done.
      by rewrite N.div_small, N.mod_small by done.
    - rewrite app_nth2 by (unfold lenN in A1; lia).
      replace (N.to_nat k - length (le_bytes_to_uint32_sequence (item (2 * p + 0)%N)))%nat
        with (N.to_nat (k - 16)) by (unfold lenN in A1; lia).
      rewrite B2 by lia. replace k with (k - 16 + 1 * 16) at 2 3 by lia.
      rewrite N.div_add, N.mod_add by done. by rewrite N.div_small, N.mod_small by lia.
  Qed.

  Lemma hashimoto_spec hash nonce rows fetch (item : N -> bytes) :
    (forall k, k < 2 * rows -> lenN (item k) = 64 /\
       fetch k = Done (le_bytes_to_uint32_sequence (item k))) ->
    0 < rows < 2 ^ 32 ->
    exists digest result, hashimoto C k512 hash nonce (128 * rows) fetch = Done (digest, result) /\
      hashimoto_of (keccak256 C) k512 hash nonce rows item digest result.
  Proof using H64.
    intros Hf Hrows. unfold hashimoto.
    replace (128 * rows / 128) with rows by (rewrite N.mul_comm, N.div_mul; lia).
    set (s := k512 (hash ++ rev nonce)).
    assert (Hs : lenN s = 64) by apply H64. rewrite head_word by done.
    destruct (le_words s 16) as [W1 W2]; [lia|]. set (w := le_bytes_to_uint32_sequence s) in *.
    destruct (for_trace (fun _ mix => lenN mix = 32)
      (hashimoto_access fetch (word32 s 0) rows) 0 HASHIMOTO_ACCESSES (w ++ w))
      as (m & Hm0 & Hloop & Hinv & Hstep).
    { done. }
    { rewrite lenN_app. lia. }
    { intros i mix Hi Hmix.
      destruct (access_spec fetch item (word32 s 0) rows mix i Hf Hrows Hmix) as (r & E & E1 & _).
      eauto. }
    rewrite Hloop. cbn [obind]. change HASHIMOTO_ACCESSES with 64 in *.
    assert (Hl : lenN (m 64) = 32) by (apply Hinv; lia).
    unfold compress. rewrite Hl. change ((32 + 3) / 4) with 8.
    destruct (collect_range (fun k =>
      a <~ index (m 64) (4 * k) ;; b <~ index (m 64) (4 * k + 1) ;;
      c <~ index (m 64) (4 * k + 2) ;; d <~ index (m 64) (4 * k + 3) ;;
      Done (fnv (fnv (fnv a b) c) d)) (fun k y => y =
       FNV (FNV (FNV (word (m 64) (4 * k)) (word (m 64) (4 * k + 1))) (word (m 64) (4 * k + 2)))
         (word (m 64) (4 * k + 3))) 8 0) as (cm & Hcm & Hcl & Hck).
    { intros k Hk. rewrite !index_word by lia. cbn [obind]. rewrite !fnv_FNV. eauto. }
    rewrite Hcm. cbn [obind]. eexists _, _. split; [done|].
    assert (Hsm : small cm).
    { apply Forall_forall. intros x Hx%elem_of_list_In.
      apply (In_nth _ _ 0) in Hx as (k & Hk & <-). specialize (Hck (N.of_nat k)).
      rewrite Nat2N.id in Hck. rewrite Hck by (unfold lenN in Hcl; lia). apply FNV_lt. }
    exists m. split; [apply Hinv; lia|]. split; [|split; [|split; [|split]]].
    - intros k Hk. rewrite Hm0. unfold word in *. destruct (N.lt_ge_cases k 16) as [Hk1|Hk1].
      + rewrite app_nth1 by (unfold lenN in W1; lia). rewrite W2 by done.
        by rewrite N.mod_small by done.
      + rewrite app_nth2 by (unfold lenN in W1; lia).
        replace (N.to_nat k - length w)%nat with (N.to_nat (k - 16)) by (unfold lenN in W1; lia).
        rewrite W2 by lia. replace k with (k - 16 + 1 * 16) at 2 by lia.
        rewrite N.mod_add by done. by rewrite N.mod_small by lia.
    - intros i Hi. fold s.
      destruct (access_spec fetch item (word32 s 0) rows (m i) i Hf Hrows) as (r & E & E1 & _ & E3).
      { apply Hinv. lia. }
      rewrite (Hstep i) in E by lia. injection E as ->. done.
    - rewrite seq_bytes_len. lia.
    - intros k Hk. rewrite <- Hck by done. destruct (seq_bytes_words cm Hsm) as [_ H].
      symmetry. apply H. lia.
    - done.
  Qed.
End items.

(** The cache is the one of the Yellow Paper; computing it raises nothing. *)
Theorem C61_cache C k512 n : digests64 k512 -> n < 62910750000 ->
  exists p R cache, largest_prime_below (262144 + 2048 * (n / 30000)) p /\
    generate_cache C k512 n = Done cache /\ lenN cache = p /\
    cache_rows k512 (generate_seed C n) p R /\
    forall i, i < p -> words_of (R 3 i) 16 (row cache i).
Proof.
  intros H64 Hn. destruct (cache_spec C k512 H64 n) as (p & R & cache & H1 & H2 & H3 & H4 & H5 & H6 & H7).
  { lia. }
  destruct (C60_cache_size n) as (p' & H8 & H9). rewrite H1 in H8. injection H8 as H8.
  assert (p' = p) as -> by lia. exists p, R, cache.
  split; [done|]. split; [done|]. split; [apply H5|]. done.
Qed.

(** An item of the dataset is the one of the Yellow Paper. *)
Theorem C61_item k512 cache i d : digests64 k512 -> 0 < lenN cache < 2 ^ 32 ->
  Forall (fun r => lenN r = 16 /\ small r) cache -> i < 2 ^ 512 ->
  generate_dataset_item k512 cache i = Done d <-> item_of k512 cache i d.
Proof.
  intros H64 Hn Hc Hi. assert (Ht : table (lenN cache) cache) by done.
  destruct (item_spec k512 H64 (lenN cache) cache i Ht Hn Hi) as (d1 & H1 & H2 & _). split.
  - intros H. assert (d = d1) as -> by congruence. done.
  - intros H. rewrite H1. f_equal. symmetry. by eapply item_unique.
Qed.

Lemma dataset_rows n : n < 1962270000 ->
  exists p, dataset_size n = Done (128 * p) /\ 0 < p < 2 ^ 32 /\
    largest_prime_below (8388608 + 65536 * (n / 30000)) p.
Proof.
  intros Hn. destruct (C60_dataset_size n) as (p & H1 & H2). exists p. split; [done|].
  split; [|done]. destruct H2 as ([H2 _] & H3 & _). split; [lia|].
  assert (n / 30000 < 65409) as He by (apply N.div_lt_upper_bound; lia).
  change (2 ^ 32) with 4294967296. generalize dependent (n / 30000). intros. lia.
Qed.

(** The verification with the cache alone agrees with the computation over the
    full dataset, and both give the value of the Yellow Paper; every item they
    fetch is in the dataset; nothing raises. *)
Theorem C61_light C k512 n hash nonce : digests64 k512 -> n < 1962270000 ->
  exists p cache dataset digest result,
    largest_prime_below (8388608 + 65536 * (n / 30000)) p /\
    dataset_size n = Done (128 * p) /\
    generate_cache C k512 n = Done cache /\
    generate_dataset C k512 n = Done dataset /\ lenN dataset = 2 * p /\
    (forall i, i < 2 * p -> item_of k512 cache i (row dataset i)) /\
    hashimoto C k512 hash nonce (128 * p) (fun i =>
      item <~ index dataset i ;; Done (le_bytes_to_uint32_sequence item)) = Done (digest, result) /\
    hashimoto_light C k512 hash nonce cache (128 * p) = Done (digest, result) /\
    hashimoto_of (keccak256 C) k512 hash nonce p (row dataset) digest result.
Proof.
  intros H64 Hn. destruct (dataset_rows n Hn) as (p & Hsize & Hp & Hlarge).
  destruct (cache_spec C k512 H64 n) as (q & R & cache & _ & Hq32 & Hq2 & Hcache & Ht & _ & _).
  { lia. }
  unfold generate_dataset. rewrite Hsize, Hcache. cbn [obind].
  replace (128 * p / HASH_BYTES) with (2 * p).
  2:{ change HASH_BYTES with 64. replace (128 * p) with (2 * p * 64) by lia.
      by rewrite N.div_mul. }
  assert (Hitem : forall i, i < 2 * p -> exists d, generate_dataset_item k512 cache i = Done d /\
    generate_dataset_item k512 cache i = Done d /\ item_of k512 cache i d /\ lenN d = 64).
  { intros i Hi. destruct (item_spec k512 H64 q cache i Ht) as (d & H1 & H2 & H3); [lia| |eauto].
    apply (N.lt_trans _ (2 * 2 ^ 32)); [lia|]. done. }
  destruct (collect_range (generate_dataset_item k512 cache) (fun i d =>
    generate_dataset_item k512 cache i = Done d /\ item_of k512 cache i d /\ lenN d = 64)
    (2 * p) [] Hitem) as (D & HD & HDl & HDi).
  destruct (hashimoto_spec C k512 H64 hash nonce p (fun i =>
      item <~ index D i ;; Done (le_bytes_to_uint32_sequence item)) (row D)) as (digest & result & E & Hof).
  { intros k Hk. destruct (HDi k Hk) as (_ & _ & H). split; [exact H|].
    rewrite (index_at D k []) by lia. done. }
  { done. }
  destruct (hashimoto_spec C k512 H64 hash nonce p (fun i =>
      item <~ generate_dataset_item k512 cache i ;; Done (le_bytes_to_uint32_sequence item)) (row D))
    as (digest' & result' & E' & Hof').
  { intros k Hk. destruct (HDi k Hk) as (H & _ & H'). split; [exact H'|]. by rewrite H. }
  { done. }
  exists p, cache, D, digest, result.
  split; [done|]. split; [done|]. split; [done|]. split; [done|]. split; [done|].
  split; [intros i Hi; apply HDi, Hi|]. split; [done|]. split; [|done].
  unfold hashimoto_light. rewrite E'. f_equal.
  destruct Hof as (m & A0 & A1 & A2 & A3 & A4 & ->). destruct Hof' as (m' & B0 & B1 & B2 & B3 & B4 & ->).
  assert (Hm : forall i, i <= 64 -> m' i = m i).
  { induction i as [|i IH] using N.peano_ind; intros Hi.
    - apply (nth_ext _ _ 0 0); [unfold lenN in *; lia|]. intros k Hk.
      specialize (A1 (N.of_nat k)). specialize (B1 (N.of_nat k)).
      unfold word in A1, B1. rewrite Nat2N.id in A1, B1. rewrite A1, B1; [done|unfold lenN in *; lia..].
    - rewrite <- N.add_1_r. destruct (A2 i) as [C1 C2]; [lia|]. destruct (B2 i) as [D1 D2]; [lia|].
      apply (nth_ext _ _ 0 0); [unfold lenN in *; lia|]. intros k Hk.
      specialize (C2 (N.of_nat k)). specialize (D2 (N.of_nat k)).
      unfold word in C2, D2. rewrite Nat2N.id in C2, D2.
      rewrite C2, D2, IH; [done|unfold lenN in *; lia..]. }
  assert (digest' = digest) as ->; [|done].
  destruct (C60_words digest []) as (R1 & _). destruct (C60_words digest' []) as (R2 & _).
  rewrite <- R1, <- R2 by (rewrite ?A3, ?B3; done). f_equal.
  destruct (le_words digest 8) as [U1 U2]; [lia|]. destruct (le_words digest' 8) as [V1 V2]; [lia|].
  apply (nth_ext _ _ 0 0); [unfold lenN in *; lia|]. intros k Hk.
  specialize (U2 (N.of_nat k)). specialize (V2 (N.of_nat k)).
  specialize (A4 (N.of_nat k)). specialize (B4 (N.of_nat k)). rewrite Hm in B4 by lia.
  unfold word in U2, V2. rewrite Nat2N.id in U2, V2.
  rewrite U2, V2, A4, B4; [done|unfold lenN in *; lia..].
Qed.

(** From block 1962270000 on the number of rows of the dataset no longer fits
    a U32: the verification raises OverflowError. *)
Theorem C61_overflow C k512 n : digests64 k512 -> 1962270000 <= n ->
  exists size, dataset_size n = Done size /\
    forall hash nonce cache, hashimoto_light C k512 hash nonce cache size = Fail (FCrash OverflowError).
Proof.
  intros H64 Hn. destruct (C60_dataset_size n) as (p & H1 & _ & _ & H2).
  exists (128 * p). split; [done|].
  assert (2 ^ 32 <= p) as Hp.
  { apply (N.le_trans _ 4294967311); [done|]. apply H2.
    - apply (trial_prime _ (N.to_nat 10923));
        [lia|vm_compute; discriminate|vm_compute; discriminate|vm_compute; reflexivity|
         vm_compute; discriminate].
    - assert (65409 <= n / 30000) as He by (apply N.div_le_lower_bound; lia). lia. }
  intros hash nonce cache. unfold hashimoto_light, hashimoto.
  replace (128 * p / 128) with p by (rewrite N.mul_comm, N.div_mul; lia).
  set (s := k512 (hash ++ rev nonce)). destruct (le_words s 16) as [W1 _]; [apply H64|].
  change (range 0 HASHIMOTO_ACCESSES) with (0 :: range 1 HASHIMOTO_ACCESSES). cbn [for_loop].
  unfold hashimoto_access at 1. rewrite lenN_app, W1. rewrite umod_pos by done. cbn [obind].
  rewrite index_word by (rewrite lenN_app, W1; done). cbn [obind].
  unfold u32. by rewrite (proj2 (N.ltb_ge _ _) Hp).
Qed.

(** ** Concrete cases *)

(** The first and the second entry of the published tables of sizes *)
Example C60_nonvacuous :
  cache_size 29999 = Done 16776896 /\ cache_size 30000 = Done 16907456 /\
  dataset_size 0 = Done 1073739904.
Proof. vm_compute. repeat split. Qed.

Definition toy512 (b : bytes) : bytes :=
  to_be_fixed 64 (N.lxor (from_be_bytes b * 0x9e3779b97f4a7c15f39cc0605cedc835) 0x0123456789abcdef).
Lemma toy512_digests : digests64 toy512.
Proof. intros b. apply to_be_fixed_len. Qed.
(** A cache of three rows: an item is computed. *)
Example C61_nonvacuous :
  let cache := [le_bytes_to_uint32_sequence (toy512 [Byte.x01]);
                le_bytes_to_uint32_sequence (toy512 [Byte.x02]);
                le_bytes_to_uint32_sequence (toy512 [Byte.x03])] in
  Forall (fun r => lenN r = 16 /\ small r) cache /\
  (match generate_dataset_item toy512 cache 5 with
   | Done d => (lenN d =? 64) && negb (word32 d 15 =? 0) | Fail _ => false end) = true.
Proof.
  split; [|vm_compute; reflexivity].
  repeat (apply Forall_cons; split; [split; [vm_compute; reflexivity|
    eapply words_small, (le_words _ 16); vm_compute; reflexivity]|]). by constructor.
Qed.

Definition PropEthash_theorems :=
  (@C60_cache_size, @C60_dataset_size, @C60_seed, @C60_epoch, @C60_words, @C61_fnv, @C61_cache,
   @C61_item, @C61_light, @C61_overflow).
Print Assumptions PropEthash_theorems.
