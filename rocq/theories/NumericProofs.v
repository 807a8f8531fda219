(** * NumericProofs: lists indexed by N, big-endian numbers, ceil32, memory
    pricing, modular exponentiation, the Taylor exponential. *)
From Verif Require Import Base State Vm StateSpec StateProofs.
From Coq Require Import ZifyBool ZifyN ZifyNat.
Ltac Zify.zify_post_hook ::= Z.div_mod_to_equations.

Global Arguments N.div : simpl never.
Global Arguments N.modulo : simpl never.
Global Arguments N.of_nat : simpl never.
Global Arguments N.to_nat : simpl never.
Global Arguments N.shiftl : simpl never.
Global Arguments N.shiftr : simpl never.
Global Arguments N.land : simpl never.
Global Arguments N.eqb : simpl never.
Global Arguments N.ltb : simpl never.
Global Arguments N.leb : simpl never.
Global Arguments N.min : simpl never.
Global Arguments N.max : simpl never.
Global Arguments N.pred : simpl never.

(** ** Lists *)
Section Lists.
  Context {A : Type}.
  Implicit Types l : list A.

  Lemma lenN_nil : lenN (@nil A) = 0.
  Proof. done. Qed.
  Lemma lenN_cons x l : lenN (x :: l) = 1 + lenN l.
  Proof. unfold lenN. simpl. lia. Qed.
  Lemma lenN_app l1 l2 : lenN (l1 ++ l2) = lenN l1 + lenN l2.
  Proof. unfold lenN. rewrite app_length. lia. Qed.
  Lemma lenN_rev l : lenN (rev l) = lenN l.
  Proof. unfold lenN. by rewrite rev_length. Qed.
  Lemma lenN_repeat (x : A) n : lenN (repeat x n) = N.of_nat n.
  Proof. unfold lenN. by rewrite repeat_length. Qed.
  Lemma lenN_0 l : lenN l = 0 <-> l = [].
  Proof. destruct l; unfold lenN; simpl; split; intros; try done; lia. Qed.
  Lemma lenN_map {B} (f : A -> B) l : lenN (map f l) = lenN l.
  Proof. unfold lenN. by rewrite map_length. Qed.

  Lemma takeN_firstn n l : takeN n l = firstn (N.to_nat n) l.
  Proof.
    revert n. induction l as [|x l IH]; intros n; simpl.
    - by rewrite firstn_nil.
    - destruct (N.eqb_spec n 0) as [->|Hn]; [done|].
      rewrite IH. replace (N.to_nat n) with (S (N.to_nat (N.pred n))) by lia. done.
  Qed.
  Lemma dropN_skipn n l : dropN n l = skipn (N.to_nat n) l.
  Proof.
    revert n. induction l as [|x l IH]; intros n; simpl.
    - by rewrite skipn_nil.
    - destruct (N.eqb_spec n 0) as [->|Hn]; [done|].
      rewrite IH. replace (N.to_nat n) with (S (N.to_nat (N.pred n))) by lia. done.
  Qed.
  Lemma lenN_takeN n l : lenN (takeN n l) = N.min n (lenN l).
  Proof. unfold lenN. rewrite takeN_firstn, firstn_length. lia. Qed.
  Lemma lenN_dropN n l : lenN (dropN n l) = lenN l - n.
  Proof. unfold lenN. rewrite dropN_skipn, skipn_length. lia. Qed.
  Lemma takeN_dropN n l : takeN n l ++ dropN n l = l.
  Proof. rewrite takeN_firstn, dropN_skipn. apply firstn_skipn. Qed.
  Lemma takeN_all n l : lenN l <= n -> takeN n l = l.
  Proof. unfold lenN. intros. rewrite takeN_firstn. apply firstn_all2. lia. Qed.
  Lemma dropN_all n l : lenN l <= n -> dropN n l = [].
  Proof. unfold lenN. intros. rewrite dropN_skipn. apply skipn_all2. lia. Qed.
  Lemma takeN_0 l : takeN 0 l = [].
  Proof. by destruct l. Qed.
  Lemma dropN_0 l : dropN 0 l = l.
  Proof. by destruct l. Qed.
  Lemma takeN_app_exact n l1 l2 : n = lenN l1 -> takeN n (l1 ++ l2) = l1.
  Proof.
    intros ->. rewrite takeN_firstn. unfold lenN. rewrite Nat2N.id.
    rewrite firstn_app, firstn_all, Nat.sub_diag. simpl. by rewrite app_nil_r.
  Qed.
  Lemma dropN_app_exact n l1 l2 : n = lenN l1 -> dropN n (l1 ++ l2) = l2.
  Proof.
    intros ->. rewrite dropN_skipn. unfold lenN. rewrite Nat2N.id.
    rewrite skipn_app, skipn_all, Nat.sub_diag. done.
  Qed.
  Lemma dropN_add a b l : dropN (a + b) l = dropN b (dropN a l).
  Proof.
    rewrite !dropN_skipn. rewrite drop_drop. f_equal. lia.
  Qed.
  Lemma lenN_sliceN a b l : lenN (sliceN a b l) = N.min (b - a) (lenN l - a).
  Proof. unfold sliceN. by rewrite lenN_takeN, lenN_dropN. Qed.
  Lemma nthN_nth_error n l : nthN l n = nth_error l (N.to_nat n).
  Proof.
    unfold nthN. rewrite dropN_skipn. generalize (N.to_nat n). clear n.
    intros n. revert l. induction n; intros [|x l]; simpl; done.
  Qed.
  Lemma nthN_Some_lt n l x : nthN l n = Some x -> n < lenN l.
  Proof.
    rewrite nthN_nth_error. intros H.
    assert (N.to_nat n < length l)%nat by (apply nth_error_Some; congruence).
    unfold lenN. lia.
  Qed.
  Lemma nthN_lt_Some n l : n < lenN l -> exists x, nthN l n = Some x.
  Proof.
    unfold lenN. intros H. rewrite nthN_nth_error.
    destruct (nth_error l (N.to_nat n)) eqn:E; [eauto|].
    apply nth_error_None in E. lia.
  Qed.
  Lemma nthN_In n l x : nthN l n = Some x -> In x l.
  Proof. rewrite nthN_nth_error. apply nth_error_In. Qed.
End Lists.

Lemma lenN_zeros n : lenN (zeros n) = n.
Proof. unfold zeros. rewrite lenN_repeat. lia. Qed.

Lemma bytes_eqb_eq a b : bytes_eqb a b = true <-> a = b.
Proof. unfold bytes_eqb. apply bool_decide_eq_true. Qed.
Lemma bytes_eqb_neq a b : bytes_eqb a b = false <-> a <> b.
Proof. unfold bytes_eqb. apply bool_decide_eq_false. Qed.

(** ** Bytes and numbers *)
Lemma byte_to_N_lt b : Byte.to_N b < 256.
Proof. pose proof (Byte.to_N_bounded b). lia. Qed.
Lemma byte_of_N_to_N x : x < 256 -> Byte.to_N (byte_of_N x) = x.
Proof.
  intros H. unfold byte_of_N. rewrite N.mod_small by lia.
  destruct (Byte.of_N x) eqn:E.
  - by apply Byte.to_of_N.
  - apply Byte.of_N_None_iff in E. lia.
Qed.
Lemma byte_to_N_of_N b : byte_of_N (Byte.to_N b) = b.
Proof.
  unfold byte_of_N. pose proof (byte_to_N_lt b).
  rewrite N.mod_small by lia. by rewrite Byte.of_to_N.
Qed.
Lemma byte_to_N_inj a b : Byte.to_N a = Byte.to_N b -> a = b.
Proof. intros H. rewrite <- (byte_to_N_of_N a), <- (byte_to_N_of_N b). by rewrite H. Qed.

Lemma from_be_fold l acc :
  fold_left (fun acc b => acc * 256 + Byte.to_N b) l acc
  = acc * 256 ^ lenN l + from_be_bytes l.
Proof.
  unfold from_be_bytes. revert acc. induction l as [|b l IH]; intros acc; simpl.
  - rewrite lenN_nil. change (256 ^ 0) with 1. lia.
  - rewrite IH, (IH (0 * 256 + Byte.to_N b)). rewrite lenN_cons.
    rewrite N.pow_add_r. change (256 ^ 1) with 256. lia.
Qed.
Lemma from_be_nil : from_be_bytes [] = 0.
Proof. done. Qed.
Lemma from_be_cons b l :
  from_be_bytes (b :: l) = Byte.to_N b * 256 ^ lenN l + from_be_bytes l.
Proof. unfold from_be_bytes at 1. simpl. rewrite from_be_fold. lia. Qed.
Lemma from_be_app a b :
  from_be_bytes (a ++ b) = from_be_bytes a * 256 ^ lenN b + from_be_bytes b.
Proof.
  unfold from_be_bytes at 1. rewrite fold_left_app. rewrite from_be_fold. done.
Qed.
Lemma from_be_lt l : from_be_bytes l < 256 ^ lenN l.
Proof.
  induction l as [|b l IH].
  - done.
  - rewrite from_be_cons, lenN_cons, N.pow_add_r. change (256 ^ 1) with 256.
    pose proof (byte_to_N_lt b).
    assert (Byte.to_N b * 256 ^ lenN l + 256 ^ lenN l <= 256 * 256 ^ lenN l); [|lia].
    nia.
Qed.
Lemma from_be_snoc l b : from_be_bytes (l ++ [b]) = from_be_bytes l * 256 + Byte.to_N b.
Proof.
  rewrite from_be_app. rewrite from_be_cons, from_be_nil.
  unfold lenN; simpl. change (256 ^ N.of_nat 1) with 256. change (256 ^ N.of_nat 0) with 1. lia.
Qed.
Lemma from_be_lt_n l n : lenN l <= n -> from_be_bytes l < 256 ^ n.
Proof.
  intros H. eapply N.lt_le_trans; [apply from_be_lt|]. apply N.pow_le_mono_r; lia.
Qed.
Lemma pow_256_32 : 256 ^ 32 = 2 ^ 256.
Proof. reflexivity. Qed.
Lemma from_be_lt_32 l : lenN l <= 32 -> from_be_bytes l < U256_CEIL.
Proof. intros H. unfold U256_CEIL. rewrite <- pow_256_32. by apply from_be_lt_n. Qed.

Lemma to_be_fixed_len n x : lenN (to_be_fixed n x) = N.of_nat n.
Proof.
  revert x. induction n as [|n IH]; intros x; simpl; [done|].
  rewrite lenN_app, IH, lenN_cons, lenN_nil. lia.
Qed.
Lemma from_to_be_fixed n x : from_be_bytes (to_be_fixed n x) = x mod 256 ^ N.of_nat n.
Proof.
  revert x. induction n as [|n IH]; intros x; simpl.
  - change (256 ^ N.of_nat 0) with 1. by rewrite N.mod_1_r.
  - rewrite from_be_snoc, IH. rewrite byte_of_N_to_N by (apply N.mod_lt; lia).
    replace (N.of_nat (S n)) with (1 + N.of_nat n) by lia.
    rewrite N.pow_add_r. change (256 ^ 1) with 256.
    rewrite N.mod_mul_r by (try apply N.pow_nonzero; lia). lia.
Qed.
Lemma to_from_be_fixed l : to_be_fixed (length l) (from_be_bytes l) = l.
Proof.
  induction l as [|b l IH] using rev_ind; [done|].
  rewrite app_length. simpl. replace (length l + 1)%nat with (S (length l)) by lia.
  simpl. rewrite from_be_snoc. pose proof (byte_to_N_lt b).
  replace ((from_be_bytes l * 256 + Byte.to_N b) / 256) with (from_be_bytes l) by lia.
  replace ((from_be_bytes l * 256 + Byte.to_N b) mod 256) with (Byte.to_N b) by lia.
  rewrite IH. by rewrite byte_to_N_of_N.
Qed.
Lemma from_be_inj a b : length a = length b -> from_be_bytes a = from_be_bytes b -> a = b.
Proof.
  intros Hl H. rewrite <- (to_from_be_fixed a), <- (to_from_be_fixed b). by rewrite Hl, H.
Qed.

Lemma lenN_to_be_bytes32 x : lenN (to_be_bytes32 x) = 32.
Proof. apply to_be_fixed_len. Qed.
Lemma from_to_be_bytes32 x : x < 2 ^ 256 -> from_be_bytes (to_be_bytes32 x) = x.
Proof. intros H. unfold to_be_bytes32. rewrite from_to_be_fixed. apply N.mod_small. exact H. Qed.
Lemma from_to_be_bytes20 x : x < 2 ^ 160 -> from_be_bytes (to_be_bytes20 x) = x.
Proof. intros H. unfold to_be_bytes20. rewrite from_to_be_fixed. apply N.mod_small. exact H. Qed.

(** ** Buffers *)
Lemma buffer_read_len b s n : lenN (buffer_read b s n) = n.
Proof.
  unfold buffer_read, right_pad_zero_bytes. rewrite lenN_app, lenN_zeros, lenN_sliceN. lia.
Qed.
Lemma memory_read_len_le m s n : lenN (memory_read_bytes m s n) <= lenN m.
Proof. unfold memory_read_bytes. rewrite lenN_sliceN. lia. Qed.
Lemma memory_read_len m s n : s + n <= lenN m -> lenN (memory_read_bytes m s n) = n.
Proof. unfold memory_read_bytes. rewrite lenN_sliceN. lia. Qed.
Lemma memory_read_len_n m s n : lenN (memory_read_bytes m s n) <= n.
Proof. unfold memory_read_bytes. rewrite lenN_sliceN. lia. Qed.
Lemma memory_write_len m s v :
  v = [] \/ s + lenN v <= lenN m -> lenN (memory_write_bytes m s v) = lenN m.
Proof.
  unfold memory_write_bytes. rewrite !lenN_app, lenN_takeN, lenN_dropN.
  intros [->|H]; [rewrite lenN_nil; lia|lia].
Qed.

(** ** ceil32 and memory pricing *)
Lemma ceil32_spec v : v <= ceil32 v /\ ceil32 v < v + 32 /\ ceil32 v mod 32 = 0.
Proof. unfold ceil32. destruct (N.eqb_spec (v mod 32) 0); lia. Qed.
Lemma ceil32_id v : v mod 32 = 0 -> ceil32 v = v.
Proof. unfold ceil32. intros ->. done. Qed.
Lemma ceil32_words v : v mod 32 = 0 -> ceil32 v / 32 * 32 = v.
Proof. intros H. rewrite ceil32_id by done. lia. Qed.

(** The price of a memory of [n] bytes. *)
Notation memcost := calculate_memory_gas_cost.

Lemma memcost_mono a b : a <= b -> memcost a <= memcost b.
Proof.
  intros H. unfold memcost.
  assert (Hw : ceil32 a / 32 <= ceil32 b / 32).
  { apply N.div_le_mono; [lia|]. unfold ceil32.
    destruct (N.eqb_spec (a mod 32) 0), (N.eqb_spec (b mod 32) 0); lia. }
  assert ((ceil32 a / 32) ^ 2 / 512 <= (ceil32 b / 32) ^ 2 / 512).
  { apply N.div_le_mono; [lia|]. by apply N.pow_le_mono_l. }
  unfold GAS_MEMORY. lia.
Qed.
Lemma memcost_0 : memcost 0 = 0.
Proof. reflexivity. Qed.
Lemma memcost_strict a b :
  a mod 32 = 0 -> b mod 32 = 0 -> a < b -> memcost a < memcost b.
Proof.
  intros Ha Hb H. unfold memcost. rewrite !ceil32_id by done.
  assert (Hw : a / 32 < b / 32) by lia.
  assert ((a / 32) ^ 2 / 512 <= (b / 32) ^ 2 / 512).
  { apply N.div_le_mono; [lia|]. apply N.pow_le_mono_l. lia. }
  unfold GAS_MEMORY. lia.
Qed.
(** Memory that can be paid for with less than 2^256 gas is shorter than
    2^256. *)
Lemma memcost_bound n : n mod 32 = 0 -> memcost n < 2 ^ 256 -> n < 2 ^ 160.
Proof.
  intros Hm H. destruct (N.lt_ge_cases n (2 ^ 160)) as [|Hge]; [done|].
  exfalso. assert (memcost (2 ^ 160) <= memcost n) by (by apply memcost_mono).
  assert (2 ^ 256 <= memcost (2 ^ 160)); [|lia].
  apply N.leb_le. vm_compute. reflexivity.
Qed.

(** calculate_gas_extend_memory on a word-sized memory. *)
Lemma extend_loop_spec exts : forall cur paid size paid' size',
  cur mod 32 = 0 ->
  extend_memory_loop cur exts paid size = (paid', size') ->
  size <= size' /\ paid <= paid' /\
  (cur + (size' - size)) mod 32 = 0 /\
  memcost (cur + (size' - size)) = memcost cur + (paid' - paid) /\
  (forall s n, In (s, n) exts -> n = 0 \/ s + n <= cur + (size' - size)).
Proof.
  induction exts as [|[s n] exts IH]; intros cur paid size paid' size' Hcur; simpl.
  - intros [= <- <-]. rewrite !N.sub_diag, N.add_0_r.
    repeat split; try lia.
  - destruct (N.eqb_spec n 0) as [->|Hn].
    + intros H. apply IH in H as (H1 & H2 & H3 & H4 & H5); [|done].
      split_and!; try done. intros s0 n0 [[= <- <-]|Hin]; [lia|]. by apply H5.
    + destruct (ceil32_spec (s + n)) as (Hc1 & Hc2 & Hc3).
      rewrite (ceil32_id cur) by done.
      destruct (N.leb_spec (ceil32 (s + n)) cur) as [Hle|Hlt].
      * intros H. apply IH in H as (H1 & H2 & H3 & H4 & H5); [|done].
        split_and!; try done.
        intros s0 n0 [[= <- <-]|Hin]; [lia|]. by apply H5.
      * intros H. apply IH in H as (H1 & H2 & H3 & H4 & H5); [|done].
        assert (memcost cur <= memcost (ceil32 (s + n))) by (apply memcost_mono; lia).
        replace (ceil32 (s + n) + (size' - (size + (ceil32 (s + n) - cur))))
          with (cur + (size' - size)) in * by lia.
        split_and!; try lia.
        intros s0 n0 [[= <- <-]|Hin]; [lia|]. by apply H5.
Qed.
Lemma extend_memory_spec mem exts cost expand :
  lenN mem mod 32 = 0 ->
  calculate_gas_extend_memory mem exts = (cost, expand) ->
  (lenN mem + expand) mod 32 = 0 /\
  memcost (lenN mem + expand) = memcost (lenN mem) + cost /\
  (forall s n, In (s, n) exts -> n = 0 \/ s + n <= lenN mem + expand).
Proof.
  intros Hm H. apply extend_loop_spec in H as (H1 & H2 & H3 & H4 & H5); [|done].
  rewrite !N.sub_0_r in *. done.
Qed.
(** The new size: just enough words for all the ranges. *)
Lemma extend_loop_size exts : forall cur paid size,
  cur mod 32 = 0 ->
  cur + (snd (extend_memory_loop cur exts paid size) - size)
  = fold_left (fun c '(s, n) => if n =? 0 then c else N.max c (ceil32 (s + n))) exts cur.
Proof.
  induction exts as [|[s n] exts IH]; intros cur paid size Hcur; simpl.
  - rewrite N.sub_diag. lia.
  - destruct (N.eqb_spec n 0) as [->|Hn]; [by apply IH|].
    destruct (ceil32_spec (s + n)) as (Hc1 & Hc2 & Hc3).
    rewrite (ceil32_id cur) by done.
    destruct (N.leb_spec (ceil32 (s + n)) cur) as [Hle|Hlt].
    + rewrite N.max_l by lia. by apply IH.
    + rewrite N.max_r by lia. rewrite <- (IH (ceil32 (s + n))
        (paid + (memcost (ceil32 (s + n)) - memcost cur)) (size + (ceil32 (s + n) - cur))) by done.
      destruct (extend_memory_loop (ceil32 (s + n)) exts
          (paid + (memcost (ceil32 (s + n)) - memcost cur)) (size + (ceil32 (s + n) - cur))) as [p' s'] eqn:E.
      apply extend_loop_spec in E as (H1 & H2 & H3 & H4 & H5); [|done]. simpl. lia.
Qed.

(** ** Loops *)
Section Loop.
  Context {St R : Type} (step : St -> St + R).

  (** [p] steps in a row without finishing. *)
  Inductive steps : nat -> St -> St -> Prop :=
  | steps_O s : steps 0 s s
  | steps_S n s s' s'' : step s = inl s' -> steps n s' s'' -> steps (S n) s s''.

  Lemma steps_app n m s s' s'' : steps n s s' -> steps m s' s'' -> steps (n + m) s s''.
  Proof. induction 1; intros; [done|]. simpl. econstructor; eauto. Qed.
  Lemma steps_snoc n s s' s'' : steps n s s' -> step s' = inl s'' -> steps (S n) s s''.
  Proof.
    intros H1 H2. replace (S n) with (n + 1)%nat by lia.
    eapply steps_app; [done|]. econstructor; [done|constructor].
  Qed.

  (** The loop either performs [p] unfinished steps, or finishes after fewer. *)
  Lemma loop_pos_spec p : forall s,
    match loop_pos p step s with
    | inl s' => steps (Pos.to_nat p) s s'
    | inr r => exists n s', (n < Pos.to_nat p)%nat /\ steps n s s' /\ step s' = inr r
    end.
  Proof.
    induction p as [p IH|p IH|]; intros s; simpl.
    - destruct (step s) as [s1|r] eqn:E0.
      + specialize (IH s1) as IH1. destruct (loop_pos p step s1) as [s2|r] eqn:E1.
        * specialize (IH s2) as IH2. destruct (loop_pos p step s2) as [s3|r] eqn:E2.
          -- rewrite Pos2Nat.inj_xI. econstructor; [done|].
             replace (2 * Pos.to_nat p)%nat with (Pos.to_nat p + Pos.to_nat p)%nat by lia.
             eapply steps_app; done.
          -- destruct IH2 as (n & s' & Hn & Hs & Hr).
             exists (S (Pos.to_nat p + n)), s'. split; [lia|]. split; [|done].
             econstructor; [done|]. eapply steps_app; done.
        * destruct IH1 as (n & s' & Hn & Hs & Hr).
          exists (S n), s'. split; [lia|]. split; [|done]. econstructor; done.
      + exists 0%nat, s. split; [lia|]. split; [constructor|done].
    - specialize (IH s) as IH1. destruct (loop_pos p step s) as [s2|r] eqn:E1.
      * specialize (IH s2) as IH2. destruct (loop_pos p step s2) as [s3|r] eqn:E2.
        -- rewrite Pos2Nat.inj_xO.
           replace (2 * Pos.to_nat p)%nat with (Pos.to_nat p + Pos.to_nat p)%nat by lia.
           eapply steps_app; done.
        -- destruct IH2 as (n & s' & Hn & Hs & Hr).
           exists (Pos.to_nat p + n)%nat, s'. split; [lia|]. split; [|done].
           eapply steps_app; done.
      * destruct IH1 as (n & s' & Hn & Hs & Hr).
        exists n, s'. split; [lia|]. split; done.
    - destruct (step s) as [s1|r] eqn:E0.
      + econstructor; [done|constructor].
      + exists 0%nat, s. split; [lia|]. split; [constructor|done].
  Qed.

  Lemma steps_det n : forall s s1 s2, steps n s s1 -> steps n s s2 -> s1 = s2.
  Proof.
    induction n; intros s s1 s2 H1 H2; inversion H1; inversion H2; subst; [done|].
    match goal with E1 : step s = inl _, E2 : step s = inl _ |- _ =>
      rewrite E1 in E2; injection E2 as -> end. eauto.
  Qed.
  Lemma steps_inr_det n1 : forall n2 s s1 s2 r1 r2,
    steps n1 s s1 -> step s1 = inr r1 -> steps n2 s s2 -> step s2 = inr r2 ->
    n1 = n2 /\ s1 = s2 /\ r1 = r2.
  Proof.
    induction n1; intros n2 s s1 s2 r1 r2 H1 E1 H2 E2; inversion H1; subst.
    - inversion H2; subst; [|congruence]. split; [done|]. split; [done|]. congruence.
    - inversion H2; subst; [congruence|].
      match goal with E1 : step s = inl _, E2 : step s = inl _ |- _ =>
        rewrite E1 in E2; injection E2 as -> end.
      edestruct IHn1 as (-> & -> & ->); eauto.
  Qed.

  (** A longer bound gives the same result. *)
  Lemma loop_pos_enough p s n s' r :
    steps n s s' -> step s' = inr r -> (n < Pos.to_nat p)%nat -> loop_pos p step s = inr r.
  Proof.
    intros Hs Hr Hn. pose proof (loop_pos_spec p s) as H.
    destruct (loop_pos p step s) as [s1|r1].
    - exfalso. revert Hn Hs Hr H. generalize (Pos.to_nat p). clear p.
      intros q. revert s n. induction q; intros s n Hn Hs Hr H; [lia|].
      inversion H as [|? ? sa ? Ea Ha]; subst.
      inversion Hs as [|nb ? sb ? Eb Hb]; subst; [congruence|].
      rewrite Ea in Eb; injection Eb as ->. eapply (IHq _ nb); eauto. lia.
    - destruct H as (n1 & s1 & _ & H1 & H2). f_equal.
      by destruct (steps_inr_det _ _ _ _ _ _ _ H1 H2 Hs Hr) as (_ & _ & ->).
  Qed.

  Lemma steps_inv (I : St -> Prop) :
    (forall s s', I s -> step s = inl s' -> I s') ->
    forall n s s', I s -> steps n s s' -> I s'.
  Proof. intros Hstep n s s' Hi H. induction H; eauto. Qed.

  Lemma steps_measure (I : St -> Prop) (mu : St -> N) :
    (forall s s', I s -> step s = inl s' -> I s' /\ mu s' < mu s) ->
    forall n s s', I s -> steps n s s' -> I s' /\ mu s' + N.of_nat n <= mu s.
  Proof.
    intros Hstep n s s' Hi H. induction H; [split; [done|lia]|].
    destruct (Hstep _ _ Hi H) as [Hi' Hm]. destruct (IHsteps Hi'). split; [done|lia].
  Qed.

  Lemma loop_pos_inv (I : St -> Prop) (P : R -> Prop) p s :
    (forall s, I s -> match step s with inl s' => I s' | inr r => P r end) ->
    I s -> match loop_pos p step s with inl s' => I s' | inr r => P r end.
  Proof.
    intros Hstep Hi. pose proof (loop_pos_spec p s) as H.
    assert (Hst : forall s s', I s -> step s = inl s' -> I s').
    { intros s0 s1 H0 E. specialize (Hstep s0 H0). by rewrite E in Hstep. }
    destruct (loop_pos p step s) as [s1|r].
    - eapply steps_inv; eauto.
    - destruct H as (n & s' & _ & Hs & Hr).
      assert (I s') as Hi' by (eapply steps_inv; eauto).
      specialize (Hstep s' Hi'). by rewrite Hr in Hstep.
  Qed.
End Loop.

(** ** pow_mod *)
Lemma pow_mod_pos_spec b m p : m <> 0 -> pow_mod_pos b m p = (b ^ Npos p) mod m.
Proof.
  intros Hm. induction p as [p IH|p IH|]; simpl.
  - rewrite IH. replace (Npos p~1) with (Npos p + Npos p + 1) by lia.
    rewrite !N.pow_add_r, N.pow_1_r.
    rewrite <- N.mul_mod by done. rewrite N.mul_mod_idemp_l by done. done.
  - rewrite IH. replace (Npos p~0) with (Npos p + Npos p) by lia.
    rewrite !N.pow_add_r. rewrite <- N.mul_mod by done. done.
  - by rewrite N.pow_1_r.
Qed.
Lemma pow_mod_spec b e m : m <> 0 -> pow_mod b e m = (b ^ e) mod m.
Proof. intros Hm. destruct e; [done|]. by apply pow_mod_pos_spec. Qed.

(** ** taylor_exponential *)
Section Taylor.
  Context (factor num den : N) (Hden : 0 < den).
  Let A0 := factor * den.
  Let B := A0 * num ^ num.

  Definition taylor_inv (s : N * N * N) : Prop :=
    let '(i, out, acc) := s in
    1 <= i /\
    acc <= A0 * num ^ N.min (i - 1) num /\
    (2 * num < i -> acc * 2 ^ (i - 2 * num - 1) <= B).

  Lemma taylor_inv_step s s' :
    taylor_inv s -> taylor_step num den s = inl s' ->
    taylor_inv s' /\ fst (fst s') = fst (fst s) + 1.
  Proof.
    destruct s as [[i out] acc]. unfold taylor_step.
    destruct (N.eqb_spec acc 0) as [|Hacc]; [done|]. intros (Hi & Hb & Hh) [= <-].
    split; [|done]. unfold taylor_inv. split; [lia|].
    assert (Hdi : i <= den * i) by (clear -Hden; nia).
    revert Hdi. generalize (den * i). intros D Hdi.
    assert (Hle : acc * num / D <= acc * num).
    { apply N.div_le_upper_bound; [lia|]. clear -Hdi Hi. nia. }
    assert (Hdec : num <= i -> acc * num / D <= acc).
    { intros Hni. apply N.div_le_upper_bound; [lia|]. rewrite N.mul_comm.
      apply N.mul_le_mono_r. lia. }
    assert (Hhalf : 2 * num <= i -> 2 * (acc * num / D) <= acc).
    { intros Hni. assert (acc * num / D <= acc / 2); [|lia].
      destruct (N.eq_dec num 0) as [->|]; [rewrite N.mul_0_r, N.div_0_l; lia|].
      transitivity (acc * num / (2 * num)).
      - apply N.div_le_compat_l. lia.
      - rewrite N.div_mul_cancel_r by lia. done. }
    assert (Hbound : acc * num / D <= A0 * num ^ N.min (i + 1 - 1) num).
    { destruct (N.le_gt_cases i num) as [Hin|Hin].
      - destruct (N.eq_dec i num) as [->|].
        + replace (N.min (num + 1 - 1) num) with (1 + (num - 1)) by lia.
          replace (N.min (num - 1) num) with (num - 1) in Hb by lia.
          rewrite N.pow_add_r, N.pow_1_r. transitivity (acc * num); [done|].
          rewrite (N.mul_comm num), N.mul_assoc. by apply N.mul_le_mono_r.
        + replace (N.min (i + 1 - 1) num) with (1 + (i - 1)) by lia.
          replace (N.min (i - 1) num) with (i - 1) in Hb by lia.
          rewrite N.pow_add_r, N.pow_1_r. transitivity (acc * num); [done|].
          rewrite (N.mul_comm num), N.mul_assoc. by apply N.mul_le_mono_r.
      - replace (N.min (i + 1 - 1) num) with num by lia.
        replace (N.min (i - 1) num) with num in Hb by lia.
        specialize (Hdec ltac:(lia)). lia. }
    split; [done|]. intros Hlt.
    destruct (N.eq_dec i (2 * num)) as [->|Hne].
    - replace (2 * num + 1 - 2 * num - 1) with 0 by lia. rewrite N.pow_0_r, N.mul_1_r.
      replace (N.min (2 * num + 1 - 1) num) with num in Hbound by lia. done.
    - specialize (Hhalf ltac:(lia)). specialize (Hh ltac:(lia)).
      replace (i + 1 - 2 * num - 1) with (1 + (i - 2 * num - 1)) by lia.
      rewrite N.pow_add_r, N.pow_1_r.
      set (t := 2 ^ (i - 2 * num - 1)) in *.
      transitivity (acc * t); [|done].
      rewrite N.mul_assoc, (N.mul_comm _ 2). by apply N.mul_le_mono_r.
  Qed.

  Lemma taylor_steps_bound n s s' :
    steps (taylor_step num den) n (1, 0, A0) s ->
    taylor_step num den s = inl s' ->
    N.of_nat n < 2 * num + num * N.size num + N.size A0 + 2.
  Proof.
    intros Hs Hlast.
    assert (Hinit : taylor_inv (1, 0, A0)).
    { unfold taylor_inv. split; [lia|]. split.
      - rewrite N.sub_diag, N.min_0_l, N.pow_0_r. lia.
      - intros. assert (num = 0) by lia. subst num.
        replace (1 - 2 * 0 - 1) with 0 by lia.
        unfold B. rewrite N.pow_0_r. lia. }
    assert (Hgen : forall m s0 s1, steps (taylor_step num den) m s0 s1 -> taylor_inv s0 ->
       taylor_inv s1 /\ fst (fst s1) = fst (fst s0) + N.of_nat m).
    { intros m s0 s1 H. induction H; intros Hi; [split; [done|lia]|].
      destruct (taylor_inv_step _ _ Hi H) as [Hi' Hf]. destruct (IHsteps Hi'). split; [done|]. lia. }
    destruct (Hgen _ _ _ Hs Hinit) as [Hi Hf]. simpl in Hf.
    destruct s as [[i out] acc]. simpl in Hf. destruct Hi as (_ & _ & Hh).
    unfold taylor_step in Hlast. destruct (N.eqb_spec acc 0) as [|Hacc]; [done|].
    destruct (N.lt_ge_cases (N.of_nat n) (2 * num + num * N.size num + N.size A0 + 2)) as [|Hge]; [done|].
    exfalso. specialize (Hh ltac:(lia)).
    assert (HA : A0 < 2 ^ N.size A0) by apply N.size_gt.
    assert (Hx : num ^ num <= 2 ^ (num * N.size num)).
    { rewrite N.mul_comm, N.pow_mul_r. apply N.pow_le_mono_l.
      pose proof (N.size_gt num). lia. }
    assert (HB : B < 2 ^ (num * N.size num + N.size A0)).
    { unfold B. rewrite N.pow_add_r.
      assert (0 < 2 ^ (num * N.size num)) by (apply N.neq_0_lt_0, N.pow_nonzero; lia). nia. }
    assert (2 ^ (num * N.size num + N.size A0) <= 2 ^ (i - 2 * num - 1)).
    { apply N.pow_le_mono_r; lia. }
    assert (1 * 2 ^ (i - 2 * num - 1) <= acc * 2 ^ (i - 2 * num - 1)); [|lia].
    apply N.mul_le_mono_r. lia.
  Qed.

  Lemma taylor_loop_total :
    exists n s v, steps (taylor_step num den) n (1, 0, A0) s /\
      taylor_step num den s = inr v /\
      taylor_exponential factor num den = Some v.
  Proof.
    unfold taylor_exponential. fold A0.
    destruct (2 * num + num * N.size num + N.size A0 + 4) as [|p] eqn:Eb; [lia|].
    pose proof (loop_pos_spec (taylor_step num den) p (1, 0, A0)) as H.
    destruct (loop_pos p _ _) as [s1|v].
    - exfalso. destruct (Pos.to_nat p) as [|q] eqn:Ep; [lia|].
      assert (exists sq, steps (taylor_step num den) q (1, 0, A0) sq /\ taylor_step num den sq = inl s1)
        as (sq & Hq & Hl).
      { clear Ep Eb. revert H. generalize (1, 0, A0). induction q; intros s0 H.
        - inversion H; subst. inversion H2; subst. exists s0. split; [constructor|done].
        - inversion H; subst. destruct (IHq _ H2) as (sq & Hq & Hl).
          exists sq. split; [|done]. econstructor; done. }
      pose proof (taylor_steps_bound _ _ _ Hq Hl). lia.
    - destruct H as (n & s' & Hn & Hs & Hr). eauto 10.
  Qed.
End Taylor.

Lemma taylor_total factor num den : 0 < den ->
  exists v, taylor_exponential factor num den = Some v.
Proof. intros H. destruct (taylor_loop_total factor num den H) as (n & s & v & _ & _ & E). eauto. Qed.

Lemma blob_price_total x : exists v, calculate_blob_gas_price x = Some v.
Proof. apply taylor_total. unfold BLOB_BASE_FEE_UPDATE_FRACTION. lia. Qed.
Lemma fork_blob_price_total f x : exists v, fork_blob_gas_price f x = Some v.
Proof. unfold fork_blob_gas_price. destruct (at_least Prague f); [apply blob_price_total|]. apply taylor_total. lia. Qed.

(** taylor_exponential is the specified series: the sum of the iterated terms
    up to the first zero one. *)
