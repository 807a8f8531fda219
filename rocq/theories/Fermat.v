(** * Fermat: the little theorem of Fermat and the criterion of Pocklington. *)
From Coq Require Import ZArith Znumtheory List Lia Permutation.
Import ListNotations.
Local Open Scope Z_scope.

Fixpoint product (l : list Z) : Z := match l with [] => 1 | x :: l => x * product l end.
Lemma product_perm l m : Permutation l m -> product l = product m.
Proof. induction 1; cbn; lia. Qed.
Lemma product_scaled p a l : 1 < p ->
  product (map (fun x => (a * x) mod p) l) mod p = (a ^ Z.of_nat (length l) * product l) mod p.
Proof.
  intros Hp. induction l as [|x l IH]; [reflexivity|].
  cbn [map product length]. rewrite Nat2Z.inj_succ, Z.pow_succ_r by lia.
  rewrite Z.mul_mod_idemp_l by lia. rewrite <- Z.mul_mod_idemp_r, IH, Z.mul_mod_idemp_r by lia.
  f_equal. ring.
Qed.
Lemma product_rel_prime p l : prime p -> (forall x, In x l -> 0 < x < p) -> rel_prime (product l) p.
Proof.
  intros Hp. induction l as [|x l IH]; intros H; cbn [product].
  - apply rel_prime_1.
  - apply rel_prime_sym, rel_prime_mult; apply rel_prime_sym; [|apply IH; intros y Hy; apply H; now right].
    apply rel_prime_le_prime; [exact Hp|]. specialize (H x (or_introl eq_refl)). lia.
Qed.

(** The residues other than zero *)
Definition residues (p : Z) : list Z := map Z.of_nat (seq 1 (Z.to_nat (p - 1))).
Lemma in_residues p x : In x (residues p) <-> 0 < x < p.
Proof.
  unfold residues. rewrite in_map_iff. split.
  - intros (n & <- & H). apply in_seq in H. lia.
  - intros H. exists (Z.to_nat x). split; [lia|]. apply in_seq. lia.
Qed.

Lemma divide_zero p x : (p | x) -> - p < x < p -> x = 0.
Proof. intros (k & ->) H. assert (k = 0) by nia. subst. lia. Qed.

Lemma scaled_perm p a : prime p -> ~ (p | a) ->
  Permutation (map (fun x => (a * x) mod p) (residues p)) (residues p).
Proof.
  intros Hp Ha. pose proof (prime_ge_2 p Hp). symmetry. apply NoDup_Permutation_bis.
  - unfold residues. apply FinFun.Injective_map_NoDup; [intros x y; lia|apply seq_NoDup].
  - rewrite map_length. lia.
  - assert (HN : NoDup (map (fun x => (a * x) mod p) (residues p))).
    { assert (H' : forall l, NoDup l -> (forall x, In x l -> 0 < x < p) -> NoDup (map (fun x => (a * x) mod p) l)).
      { induction l as [|x l IH]; intros HN HI; cbn [map]; [constructor|]. apply NoDup_cons_iff in HN as [H1 H2].
        constructor; [|apply IH; [exact H2|intros y Hy; apply HI; now right]].
        rewrite in_map_iff. intros (y & E & Hy). apply H1.
        assert (Hd : (p | a * (y - x))).
        { apply Z.mod_divide; [lia|]. rewrite Z.mul_sub_distr_l, Zminus_mod, E, Z.sub_diag. now apply Z.mod_0_l; lia. }
        apply prime_mult in Hd; [|exact Hp]. destruct Hd as [Hd|Hd]; [contradiction|].
        pose proof (HI x (or_introl eq_refl)). pose proof (HI y (or_intror Hy)).
        apply divide_zero in Hd; [|lia]. assert (y = x) by lia. now subst. }
      apply H'; [|intros x; apply in_residues].
      unfold residues. apply FinFun.Injective_map_NoDup; [intros x y; lia|apply seq_NoDup]. }
    assert (HI : incl (map (fun x => (a * x) mod p) (residues p)) (residues p)).
    { intros z Hz. apply in_map_iff in Hz as (x & <- & Hx). apply in_residues in Hx. apply in_residues.
      pose proof (Z.mod_pos_bound (a * x) p ltac:(lia)).
      assert ((a * x) mod p <> 0); [|lia]. intros E. apply Z.mod_divide in E; [|lia].
      apply prime_mult in E; [|exact Hp]. destruct E as [E|E]; [contradiction|].
      apply divide_zero in E; lia. }
    apply NoDup_length_incl; [exact HN| |exact HI]. rewrite map_length. lia.
Qed.

Theorem fermat p a : prime p -> ~ (p | a) -> a ^ (p - 1) mod p = 1.
Proof.
  intros Hp Ha. pose proof (prime_ge_2 p Hp) as H2.
  pose proof (product_perm _ _ (scaled_perm p a Hp Ha)) as E.
  pose proof (product_scaled p a (residues p) ltac:(lia)) as E'. rewrite E in E'.
  assert (EL : Z.of_nat (length (residues p)) = p - 1).
  { unfold residues. rewrite map_length, seq_length. lia. }
  rewrite EL in E'.
  assert (Hd : (p | product (residues p) * (a ^ (p - 1) - 1))).
  { apply Z.mod_divide; [lia|].
    replace (product (residues p) * (a ^ (p - 1) - 1)) with (a ^ (p - 1) * product (residues p) - product (residues p)) by ring.
    rewrite Zminus_mod, <- E', Z.sub_diag. apply Z.mod_0_l. lia. }
  apply Gauss in Hd; [|apply rel_prime_sym, product_rel_prime; [exact Hp|intros x; apply in_residues]].
  destruct Hd as (k & Hk). replace (a ^ (p - 1)) with (1 + k * p) by lia. rewrite Z.mod_add by lia.
  apply Z.mod_1_l. lia.
Qed.

(** ** Pocklington *)

Lemma pow_mod_1 d a n : 1 < d -> 0 <= n -> a mod d = 1 -> a ^ n mod d = 1.
Proof.
  intros Hd Hn Ha. revert n Hn. apply natlike_ind; [apply Z.mod_1_l; lia|].
  intros n Hn IH. rewrite Z.pow_succ_r by lia. rewrite Z.mul_mod, Ha, IH by lia. apply Z.mod_1_l. lia.
Qed.

(** The smallest divisor *)
Lemma not_prime_divisor n : 1 < n -> ~ prime n -> exists d, prime d /\ (d | n) /\ d * d <= n.
Proof.
  intros Hn. assert (H : forall k, 0 <= k -> forall n, 1 < n <= k -> ~ prime n -> exists d, prime d /\ (d | n) /\ d * d <= n).
  { clear n Hn. apply (natlike_ind (fun k => forall n, 1 < n <= k -> ~ prime n -> exists d, prime d /\ (d | n) /\ d * d <= n));
      [lia|].
    intros k Hk IH n Hn NP. destruct (not_prime_divide n ltac:(lia) NP) as (x & Hx & y & E).
    (* n = y * x with 1 < x < n *)
    assert (Hy : 1 < y < n) by nia.
    destruct (Z.le_ge_cases x y) as [Hle|Hle].
    - destruct (prime_dec x) as [Px|Px]; [exists x; split; [exact Px|split; [exists y; lia|nia]]|].
      destruct (IH x ltac:(lia) Px) as (d & Pd & Hd & Hs). exists d. split; [exact Pd|].
      split; [apply (Z.divide_trans _ x); [exact Hd|exists y; lia]|nia].
    - destruct (prime_dec y) as [Py|Py]; [exists y; split; [exact Py|split; [exists x; lia|nia]]|].
      destruct (IH y ltac:(lia) Py) as (d & Pd & Hd & Hs). exists d. split; [exact Pd|].
      split; [apply (Z.divide_trans _ y); [exact Hd|exists x; lia]|nia]. }
  exact (H n ltac:(lia) n ltac:(lia)).
Qed.

(** A prime [q] that divides [n - 1] divides [d - 1] for each prime divisor [d]
    of [n]. *)
Lemma pocklington_divisor n q k a d : 1 < n -> prime q -> 0 < k -> n = k * q + 1 ->
  a ^ (n - 1) mod n = 1 -> Z.gcd (a ^ k - 1) n = 1 -> prime d -> (d | n) -> (q | d - 1).
Proof.
  intros Hn Hq Hk E H1 H2 Pd Hd. pose proof (prime_ge_2 d Pd) as Hd2. pose proof (prime_ge_2 q Hq) as Hq2.
  destruct (Zdivide_dec q (d - 1)) as [Y|NY]; [exact Y|exfalso].
  assert (HA : a ^ (n - 1) mod d = 1).
  { destruct Hd as (c & Hc). pose proof (Z.div_mod (a ^ (n - 1)) n ltac:(lia)) as D. rewrite H1 in D. rewrite D.
    generalize (a ^ (n - 1) / n). intros w. rewrite Hc.
    replace (c * d * w + 1) with (1 + (c * w) * d) by ring.
    rewrite Z.mod_add by lia. apply Z.mod_1_l. lia. }
  assert (Hna : ~ (d | a)).
  { intros (c & ->). assert (E0 : (c * d) ^ (n - 1) mod d = 0); [|rewrite E0 in HA; discriminate].
    replace (n - 1) with (Z.succ (n - 2)) by lia. rewrite Z.pow_succ_r by lia.
    generalize ((c * d) ^ (n - 2)). intros w.
    replace (c * d * w) with (c * w * d) by ring. apply Z.mod_mul. lia. }
  assert (RP : rel_prime q (d - 1)) by (apply prime_rel_prime; assumption).
  destruct (rel_prime_bezout _ _ RP) as [u v B].
  (* an equation with exponents that are not negative *)
  assert (B' : exists u' v', 0 <= u' /\ 0 <= v' /\ u' * q = 1 + v' * (d - 1)).
  { exists (u + (Z.abs u + Z.abs v) * (d - 1)), ((Z.abs u + Z.abs v) * q - v).
    clear -B Hd2 Hq2. split; [nia|]. split; [nia|]. nia. }
  clear u v B. destruct B' as (u & v & Hu & Hv & B).
  assert (Hkv : 0 <= k * v) by (clear -Hk Hv; nia).
  assert (F : a ^ k mod d = 1).
  { assert (X1 : a ^ (k * (u * q)) mod d = 1).
    { replace (k * (u * q)) with ((n - 1) * u) by (rewrite E; ring). rewrite Z.pow_mul_r by lia.
      apply pow_mod_1; [lia|exact Hu|exact HA]. }
    rewrite B in X1. replace (k * (1 + v * (d - 1))) with (k + (d - 1) * (k * v)) in X1 by ring.
    rewrite Z.pow_add_r in X1; [|lia|clear -Hkv Hd2; nia].
    rewrite Z.mul_mod in X1 by lia. rewrite (Z.pow_mul_r a (d - 1) (k * v)) in X1; [|lia|exact Hkv].
    rewrite (pow_mod_1 d (a ^ (d - 1)) (k * v)) in X1; [|lia|exact Hkv|apply fermat; assumption].
    rewrite Z.mul_1_r, Z.mod_mod in X1 by lia. exact X1. }
  assert (D1 : (d | a ^ k - 1)).
  { apply Z.mod_divide; [lia|]. rewrite Zminus_mod, F, (Z.mod_1_l d) by lia. apply Z.mod_0_l. lia. }
  assert (D2 : (d | 1)) by (rewrite <- H2; apply Z.gcd_greatest; assumption).
  apply Z.divide_1_r_nonneg in D2; lia.
Qed.

(** If these primes have a product beyond the root of [n], then [n] is prime. *)
Theorem pocklington n F : 1 < n -> n < F * F -> 0 < F -> (forall d, prime d -> (d | n) -> (F | d - 1)) -> prime n.
Proof.
  intros Hn Hs HF H. destruct (prime_dec n) as [P|NP]; [exact P|exfalso].
  destruct (not_prime_divisor n Hn NP) as (d & Pd & Hd & Hds). pose proof (prime_ge_2 d Pd) as Hd2.
  destruct (H d Pd Hd) as (c & Hc). assert (0 < c) by nia. assert (F < d) by nia. nia.
Qed.

(** ** Trial division *)

Fixpoint no_divisor (n : Z) (d : Z) (fuel : nat) : bool :=
  match fuel with
  | O => false
  | S fuel => if n <? d * d then true else if n mod d =? 0 then false else no_divisor n (d + 1) fuel
  end.
Lemma no_divisor_ok n fuel : forall d, 2 <= d -> no_divisor n d fuel = true ->
  forall x, d <= x -> x * x <= n -> ~ (x | n).
Proof.
  induction fuel as [|fuel IH]; cbn [no_divisor]; [discriminate|]. intros d Hd.
  destruct (Z.ltb_spec n (d * d)) as [Hl|Hl]; [intros _ x H1 H2; nia|].
  destruct (Z.eqb_spec (n mod d) 0) as [E|E]; [discriminate|]. intros H x H1 H2.
  destruct (Z.eq_dec x d) as [->|Hx]; [|apply (IH (d + 1)); try lia; exact H].
  intros D. apply E. apply Z.mod_divide; [lia|exact D].
Qed.
Theorem trial_division n fuel : 1 < n -> no_divisor n 2 fuel = true -> prime n.
Proof.
  intros Hn H. destruct (prime_dec n) as [P|NP]; [exact P|exfalso].
  destruct (not_prime_divisor n Hn NP) as (d & Pd & Hd & Hs). pose proof (prime_ge_2 d Pd).
  exact (no_divisor_ok n fuel 2 ltac:(lia) H d ltac:(lia) Hs Hd).
Qed.
