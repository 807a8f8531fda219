(** * ArithProofs: the value functions of arithmetic, comparison and bitwise
    instructions. *)
From Verif Require Import Base State Vm Instructions StateSpec StateProofs NumericProofs.
From Coq Require Import ZifyBool ZifyN ZifyNat.
Ltac Zify.zify_post_hook ::= Z.div_mod_to_equations.

(** Two's complement: the word representing an integer, the integer
    represented by a word. *)
Definition as_word (z : Z) : N := Z.to_N (z mod 2 ^ 256).
Definition as_signed (x : N) : Z := ((Z.of_N x + 2 ^ 255) mod 2 ^ 256 - 2 ^ 255)%Z.

Lemma to_signed_spec x : x < 2 ^ 256 -> to_signed x = as_signed x.
Proof.
  intros H. unfold to_signed, as_signed.
  destruct (N.ltb_spec x (2 ^ 255)) as [Hlt|Hge].
  - rewrite Z.mod_small; lia.
  - replace (Z.of_N x + 2 ^ 255)%Z with ((Z.of_N x - 2 ^ 255) + 1 * 2 ^ 256)%Z by lia.
    rewrite Z.mod_add by lia. rewrite Z.mod_small; lia.
Qed.
Lemma as_signed_range x : (- 2 ^ 255 <= as_signed x < 2 ^ 255)%Z.
Proof. unfold as_signed. pose proof (Z.mod_pos_bound (Z.of_N x + 2 ^ 255) (2 ^ 256)). lia. Qed.
Lemma as_word_lt z : as_word z < 2 ^ 256.
Proof. unfold as_word. pose proof (Z.mod_pos_bound z (2 ^ 256)). lia. Qed.
Lemma as_word_signed x : x < 2 ^ 256 -> as_word (as_signed x) = x.
Proof.
  intros H. unfold as_word, as_signed. rewrite Zminus_mod_idemp_l.
  replace (Z.of_N x + 2 ^ 255 - 2 ^ 255)%Z with (Z.of_N x) by lia.
  rewrite Z.mod_small by lia. lia.
Qed.
Lemma as_word_small z : (0 <= z < 2 ^ 256)%Z -> as_word z = Z.to_N z.
Proof. intros. unfold as_word. by rewrite Z.mod_small. Qed.

Lemma u256_from_signed_spec z : (z < 2 ^ 256)%Z -> u256_from_signed z = Ok (as_word z).
Proof.
  intros H. unfold u256_from_signed, from_signed.
  destruct (Z.ltb_spec z 0); [done|]. destruct (Z.ltb_spec z (2 ^ 256)); [|lia].
  by rewrite as_word_small.
Qed.
Lemma to_u256_ok x : x < 2 ^ 256 -> to_u256 x = Ok x.
Proof. intros H. unfold to_u256, U256_CEIL. destruct (N.ltb_spec x (2 ^ 256)); [done|lia]. Qed.
Lemma to_u256_inv x y : to_u256 x = Ok y -> y = x /\ x < 2 ^ 256.
Proof. unfold to_u256, U256_CEIL. destruct (N.ltb_spec x (2 ^ 256)); [|done]. by intros [= ->]. Qed.
Lemma to_u256_raise x c : to_u256 x = Raise c -> c = OverflowError /\ 2 ^ 256 <= x.
Proof. unfold to_u256, U256_CEIL. destruct (N.ltb_spec x (2 ^ 256)); [done|]. by intros [= ->]. Qed.

Lemma get_sign_sgn z : get_sign z = Z.sgn z.
Proof. unfold get_sign. destruct (Z.ltb_spec z 0), (Z.eqb_spec z 0); lia. Qed.

Lemma N2Z_mod_word z : N.modulo z (2 ^ 256) = as_word (Z.of_N z).
Proof. unfold as_word. rewrite <- (N2Z.id (z mod 2 ^ 256)), N2Z.inj_mod. done. Qed.

Lemma wrapping_add_spec x y : wrapping_add x y = as_word (Z.of_N x + Z.of_N y).
Proof. unfold wrapping_add, U256_CEIL. rewrite N2Z_mod_word, N2Z.inj_add. done. Qed.
Lemma wrapping_sub_spec x y : y < 2 ^ 256 -> wrapping_sub x y = as_word (Z.of_N x - Z.of_N y).
Proof.
  intros H. unfold wrapping_sub, U256_CEIL. rewrite N2Z_mod_word, N2Z.inj_sub, N2Z.inj_add by lia.
  unfold as_word. replace (Z.of_N x + Z.of_N (2 ^ 256) - Z.of_N y)%Z
    with (Z.of_N x - Z.of_N y + 1 * 2 ^ 256)%Z by lia.
  by rewrite Z.mod_add by lia.
Qed.
Lemma wrapping_mul_spec x y : wrapping_mul x y = as_word (Z.of_N x * Z.of_N y).
Proof. unfold wrapping_mul, U256_CEIL. rewrite N2Z_mod_word, N2Z.inj_mul. done. Qed.

Lemma sgn_abs_quot a b : b <> 0%Z ->
  (Z.sgn (a * b) * (Z.abs a / Z.abs b))%Z = Z.quot a b.
Proof.
  intros Hb. rewrite <- Z.quot_div_nonneg by lia.
  rewrite Z.quot_abs by lia.
  rewrite Z.sgn_mul.
  destruct (Z.eq_dec (Z.quot a b) 0%Z) as [E|E].
  { rewrite E. simpl. lia. }
  rewrite <- Z.sgn_mul. rewrite Z.sgn_mul.
  assert (Hs : Z.sgn (Z.quot a b) = (Z.sgn a * Z.sgn b)%Z).
  { pose proof (Z.quot_rem' a b) as Hq.
    destruct (Z.lt_trichotomy a 0%Z) as [Ha|[->|Ha]]; [|rewrite Z.quot_0_l in E; lia|];
    destruct (Z.lt_trichotomy b 0%Z) as [Hb'|[->|Hb']]; try lia.
    - assert (0 <= Z.quot a b)%Z by (rewrite <- Z.quot_opp_opp by lia; apply Z.quot_pos; lia).
      rewrite (Z.sgn_neg a), (Z.sgn_neg b), Z.sgn_pos; lia.
    - assert (0 <= - (Z.quot a b))%Z by (rewrite <- Z.quot_opp_l by lia; apply Z.quot_pos; lia).
      rewrite (Z.sgn_neg a), (Z.sgn_pos b), Z.sgn_neg; lia.
    - assert (0 <= - (Z.quot a b))%Z by (rewrite <- Z.quot_opp_r by lia; apply Z.quot_pos; lia).
      rewrite (Z.sgn_pos a), (Z.sgn_neg b), Z.sgn_neg; lia.
    - assert (0 <= Z.quot a b)%Z by (apply Z.quot_pos; lia).
      rewrite (Z.sgn_pos a), (Z.sgn_pos b), Z.sgn_pos; lia. }
  rewrite <- Hs. rewrite Z.mul_comm. apply Z.abs_sgn.
Qed.
Lemma sgn_abs_rem a b : b <> 0%Z ->
  (Z.sgn a * (Z.abs a mod Z.abs b))%Z = Z.rem a b.
Proof.
  intros Hb. rewrite <- Z.rem_mod_nonneg by lia. rewrite Z.rem_abs by lia.
  destruct (Z.eq_dec (Z.rem a b) 0%Z) as [E|E]; [rewrite E; lia|].
  assert (Hs : Z.sgn a = Z.sgn (Z.rem a b)) by (symmetry; by apply Z.rem_sign_nz).
  rewrite Hs, Z.mul_comm. apply Z.abs_sgn.
Qed.

Lemma sdiv_value_spec x y : x < 2 ^ 256 -> y < 2 ^ 256 ->
  sdiv_value x y = Ok (if y =? 0 then 0 else as_word (Z.quot (as_signed x) (as_signed y))).
Proof.
  intros Hx Hy. unfold sdiv_value. rewrite !to_signed_spec by done.
  assert (Hy0 : (as_signed y = 0)%Z <-> y = 0).
  { split; [|by intros ->]. intros E. rewrite <- (as_word_signed y) by done. by rewrite E. }
  pose proof (as_signed_range x) as Hrx. pose proof (as_signed_range y) as Hry.
  set (a := as_signed x) in *. set (b := as_signed y) in *.
  destruct (Z.eqb_spec b 0) as [Eb|Eb].
  { destruct (N.eqb_spec y 0); [|tauto]. by rewrite u256_from_signed_spec. }
  destruct (N.eqb_spec y 0); [tauto|].
  destruct (Z.eqb_spec a (- 2 ^ 255)) as [Ea|Ea]; destruct (Z.eqb_spec b (-1)) as [Eb1|Eb1]; simpl andb; cbv iota.
  - rewrite Ea, Eb1. rewrite u256_from_signed_spec by lia. f_equal.
  - rewrite get_sign_sgn, sgn_abs_quot by done. rewrite u256_from_signed_spec; [done|].
    assert (Z.abs (Z.quot a b) <= Z.abs a)%Z; [|lia].
    rewrite <- Z.quot_abs by lia. apply Z.quot_le_upper_bound; nia.
  - rewrite get_sign_sgn, sgn_abs_quot by done. rewrite u256_from_signed_spec; [done|].
    assert (Z.abs (Z.quot a b) <= Z.abs a)%Z; [|lia].
    rewrite <- Z.quot_abs by lia. apply Z.quot_le_upper_bound; nia.
  - rewrite get_sign_sgn, sgn_abs_quot by done. rewrite u256_from_signed_spec; [done|].
    assert (Z.abs (Z.quot a b) <= Z.abs a)%Z; [|lia].
    rewrite <- Z.quot_abs by lia. apply Z.quot_le_upper_bound; nia.
Qed.
Lemma smod_value_spec x y : x < 2 ^ 256 -> y < 2 ^ 256 ->
  smod_value x y = Ok (if y =? 0 then 0 else as_word (Z.rem (as_signed x) (as_signed y))).
Proof.
  intros Hx Hy. unfold smod_value. rewrite !to_signed_spec by done.
  assert (Hy0 : (as_signed y = 0)%Z <-> y = 0).
  { split; [|by intros ->]. intros E. rewrite <- (as_word_signed y) by done. by rewrite E. }
  pose proof (as_signed_range x) as Hrx. pose proof (as_signed_range y) as Hry.
  set (a := as_signed x) in *. set (b := as_signed y) in *.
  destruct (Z.eqb_spec b 0) as [Eb|Eb].
  { destruct (N.eqb_spec y 0); [|tauto]. by rewrite u256_from_signed_spec. }
  destruct (N.eqb_spec y 0); [tauto|].
  rewrite get_sign_sgn, sgn_abs_rem by done. rewrite u256_from_signed_spec; [done|].
  assert (Z.abs (Z.rem a b) < Z.abs b)%Z by (by apply Z.rem_bound_abs). lia.
Qed.

Lemma addmod_value_spec x y z : z < 2 ^ 256 ->
  addmod_value x y z = Ok (if z =? 0 then 0 else (x + y) mod z).
Proof.
  intros H. unfold addmod_value. destruct (N.eqb_spec z 0); [done|].
  apply to_u256_ok. pose proof (N.mod_lt (x + y) z). lia.
Qed.
Lemma mulmod_value_spec x y z : z < 2 ^ 256 ->
  mulmod_value x y z = Ok (if z =? 0 then 0 else (x * y) mod z).
Proof.
  intros H. unfold mulmod_value. destruct (N.eqb_spec z 0); [done|].
  apply to_u256_ok. pose proof (N.mod_lt (x * y) z). lia.
Qed.
Lemma exp_value_spec x y : exp_value x y = Ok (x ^ y mod 2 ^ 256).
Proof.
  unfold exp_value. replace (U256_MAX + 1) with (2 ^ 256) by reflexivity.
  rewrite pow_mod_spec by lia. apply to_u256_ok. apply N.mod_lt. lia.
Qed.

(** Dropping leading bytes is reduction modulo a power of 256. *)
Lemma from_be_dropN k l : from_be_bytes (dropN k l) = from_be_bytes l mod 256 ^ (lenN l - k).
Proof.
  rewrite <- (takeN_dropN k l) at 2. rewrite from_be_app.
  rewrite lenN_dropN. rewrite N.add_comm, N.mod_add by (apply N.pow_nonzero; lia).
  rewrite N.mod_small; [done|]. rewrite <- lenN_dropN. apply from_be_lt.
Qed.
Lemma from_be_repeat_ff n : from_be_bytes (repeat Byte.xff n) = 256 ^ N.of_nat n - 1.
Proof.
  induction n as [|n IH]; [done|]. simpl repeat. rewrite from_be_cons, IH, lenN_repeat.
  change (Byte.to_N Byte.xff) with 255.
  replace (N.of_nat (S n)) with (1 + N.of_nat n) by lia. rewrite N.pow_add_r.
  change (256 ^ 1) with 256.
  assert (256 ^ N.of_nat n <> 0) by (apply N.pow_nonzero; lia). lia.
Qed.

(** SIGNEXTEND: the low [8*(k+1)] bits read as a signed number. *)
Definition signextend_spec (k x : N) : N :=
  if 31 <? k then x
  else let b := (8 * (Z.of_N k + 1))%Z in
       as_word ((Z.of_N x + 2 ^ (b - 1)) mod 2 ^ b - 2 ^ (b - 1)).

Lemma pow256_pow2 n : 256 ^ n = 2 ^ (8 * n).
Proof. rewrite N.pow_mul_r. done. Qed.

Lemma signextend_value_spec k x : x < 2 ^ 256 ->
  signextend_value k x = Ok (signextend_spec k x).
Proof.
  intros Hx. unfold signextend_value, signextend_spec.
  destruct (N.ltb_spec 31 k) as [|Hk]; [done|].
  assert (Hlen : lenN (dropN (31 - k) (to_be_bytes32 x)) = k + 1).
  { rewrite lenN_dropN, lenN_to_be_bytes32. lia. }
  assert (Hval : from_be_bytes (dropN (31 - k) (to_be_bytes32 x)) = x mod 256 ^ (k + 1)).
  { rewrite from_be_dropN, lenN_to_be_bytes32, from_to_be_bytes32 by done.
    do 2 f_equal. lia. }
  destruct (dropN (31 - k) (to_be_bytes32 x)) as [|b0 rest] eqn:Ed.
  { rewrite lenN_nil in Hlen. lia. }
  rewrite lenN_cons in Hlen.
  pose proof (from_be_cons b0 rest) as Hc. rewrite Hval in Hc.
  pose proof (from_be_lt rest) as Hr.
  assert (Hlk : lenN rest = k) by lia. rewrite Hlk in Hc, Hr.
  pose proof (byte_to_N_lt b0) as Hb.
  rewrite N.shiftr_div_pow2. change (2 ^ 7) with 128.
  set (B := (8 * (Z.of_N k + 1))%Z).
  (* P = 256^k; 2^(B-1) = 128 P; 2^B = 256 P *)
  assert (HP1 : (2 ^ (B - 1) = 128 * Z.of_N (256 ^ k))%Z).
  { rewrite pow256_pow2, N2Z.inj_pow. change (Z.of_N 2) with 2%Z.
    replace (B - 1)%Z with (7 + Z.of_N (8 * k))%Z by (unfold B; lia).
    rewrite Z.pow_add_r by lia. done. }
  assert (HP2 : (2 ^ B = 256 * Z.of_N (256 ^ k))%Z).
  { rewrite pow256_pow2, N2Z.inj_pow. change (Z.of_N 2) with 2%Z.
    replace B with (8 + Z.of_N (8 * k))%Z by (unfold B; lia).
    rewrite Z.pow_add_r by lia. done. }
  rewrite HP1, HP2. clear HP1 HP2 B.
  assert (HPP : 256 ^ (k + 1) = 256 * 256 ^ k) by (rewrite N.pow_add_r; change (256 ^ 1) with 256; lia).
  rewrite HPP in Hc.
  assert (HP0 : 0 < 256 ^ k) by (apply N.neq_0_lt_0, N.pow_nonzero; lia).
  assert (Htop : 256 ^ (31 - k) * (256 * 256 ^ k) = 2 ^ 256).
  { rewrite <- HPP, <- N.pow_add_r. replace (31 - k + (k + 1)) with 32 by (clear -Hk; lia). reflexivity. }
  assert (Hff : from_be_bytes (repeat Byte.xff (N.to_nat (32 - (k + 1))) ++ b0 :: rest)
     = 2 ^ 256 - 256 * 256 ^ k + x mod (256 * 256 ^ k)).
  { rewrite from_be_app, from_be_repeat_ff, Hval, lenN_cons. replace (1 + lenN rest) with (k + 1) by lia.
    rewrite N2Nat.id, HPP. replace (32 - (k + 1)) with (31 - k) by (clear; lia).
    rewrite <- Htop. rewrite N.mul_sub_distr_r. rewrite N.mul_1_l. done. }
  assert (HtopP : 256 * 256 ^ k <= 2 ^ 256).
  { rewrite <- Htop. assert (256 ^ (31 - k) <> 0) by (apply N.pow_nonzero; lia). 
    rewrite <- (N.mul_1_l (256 * 256 ^ k)) at 1. apply N.mul_le_mono_r. lia. }
  rewrite HPP in Hval.
  rewrite Hff, Hval. clear Hff Hval Htop HPP.
  generalize dependent (256 ^ k). intros P.
  intros Hc Hr HP0 HtopP.
  pose proof (N.mod_lt x (256 * P) ltac:(lia)) as Hm.
  assert (Hxm : Z.of_N (x mod (256 * P)) = (Z.of_N x mod (256 * Z.of_N P))%Z).
  { rewrite N2Z.inj_mod, N2Z.inj_mul. done. }
  rewrite <- Zplus_mod_idemp_l, <- Hxm.
  assert (Hb7 : Byte.to_N b0 / 128 = 0 <-> Byte.to_N b0 < 128) by lia.
  revert Hc Hm. clear Hxm. generalize (x mod (256 * P)). intros v Hc Hm.
  destruct (N.eqb_spec (Byte.to_N b0 / 128) 0) as [E|E].
  - apply Hb7 in E.
    assert (Hv : v < 128 * P) by (clear -Hc Hr E; nia).
    rewrite to_u256_ok by lia. f_equal. rewrite Z.mod_small by lia.
    rewrite as_word_small by lia. lia.
  - assert (E' : 128 <= Byte.to_N b0) by lia. clear E Hb7.
    assert (Hv : 128 * P <= v) by (clear -Hc Hr E'; nia).
    rewrite to_u256_ok by lia. f_equal.
    replace (Z.of_N v + 128 * Z.of_N P)%Z with (Z.of_N v - 128 * Z.of_N P + 1 * (256 * Z.of_N P))%Z by lia.
    rewrite Z.mod_add by lia. rewrite Z.mod_small by lia.
    unfold as_word.
    replace (Z.of_N v - 128 * Z.of_N P - 128 * Z.of_N P)%Z
      with (Z.of_N (2 ^ 256 - 256 * P + v) + (-1) * 2 ^ 256)%Z by lia.
    rewrite Z.mod_add by lia. rewrite Z.mod_small by lia. lia.
Qed.

Lemma not_value_spec x : x < 2 ^ 256 -> not_value x = 2 ^ 256 - 1 - x.
Proof.
  intros H. unfold not_value. rewrite Z.land_ones by lia.
  unfold Z.lnot. replace (Z.pred (- Z.of_N x)) with ((2 ^ 256 - 1 - Z.of_N x) + (-1) * 2 ^ 256)%Z by lia.
  rewrite Z.mod_add by lia. rewrite Z.mod_small by lia. lia.
Qed.
Lemma byte_value_spec i x : byte_value i x = if i <? 32 then (x / 256 ^ (31 - i)) mod 256 else 0.
Proof.
  unfold byte_value. destruct (N.leb_spec 32 i), (N.ltb_spec i 32); try lia.
  change 255 with (N.ones 8). rewrite N.land_ones, N.shiftr_div_pow2.
  rewrite pow256_pow2. do 3 f_equal. lia.
Qed.
Lemma shl_value_spec s x : shl_value s x = Ok ((x * 2 ^ s) mod 2 ^ 256).
Proof.
  unfold shl_value. destruct (N.ltb_spec s 256).
  - change U256_MAX with (N.ones 256). rewrite N.land_ones, N.shiftl_mul_pow2.
    apply to_u256_ok. apply N.mod_lt. lia.
  - f_equal. replace s with ((s - 256) + 256) by lia. rewrite N.pow_add_r, N.mul_assoc.
    rewrite N.mod_mul by lia. done.
Qed.
Lemma shr_value_spec s x : x < 2 ^ 256 -> shr_value s x = x / 2 ^ s.
Proof.
  intros H. unfold shr_value. destruct (N.ltb_spec s 256).
  - apply N.shiftr_div_pow2.
  - symmetry. apply N.div_small. eapply N.lt_le_trans; [done|]. apply N.pow_le_mono_r; lia.
Qed.
Lemma sar_value_spec s x : x < 2 ^ 256 ->
  sar_value s x = Ok (as_word (as_signed x / 2 ^ Z.of_N s)).
Proof.
  intros H. unfold sar_value. rewrite to_signed_spec by done.
  pose proof (as_signed_range x) as Hr. set (a := as_signed x) in *.
  assert (Hp : (0 < 2 ^ Z.of_N s)%Z) by (apply Z.pow_pos_nonneg; lia).
  destruct (N.ltb_spec s 256) as [Hs|Hs].
  - rewrite Z.shiftr_div_pow2 by lia. apply u256_from_signed_spec.
    assert (a / 2 ^ Z.of_N s < 2 ^ 255)%Z; [|lia].
    apply Z.div_lt_upper_bound; [lia|]. nia.
  - assert (2 ^ 256 <= 2 ^ Z.of_N s)%Z by (apply Z.pow_le_mono_r; lia).
    destruct (Z.leb_spec 0 a).
    + rewrite Z.div_small by lia. done.
    + replace (a / 2 ^ Z.of_N s)%Z with (-1)%Z.
      * reflexivity.
      * apply (Z.div_unique_pos _ _ _ (a + 2 ^ Z.of_N s)); lia.
Qed.
Lemma clz_value_spec x : x < 2 ^ 256 ->
  exists r, clz_value x = Ok r /\ r <= 256 /\ x < 2 ^ (256 - r) /\ (x <> 0 -> 2 ^ (256 - r) <= 2 * x).
Proof.
  intros H. unfold clz_value, bit_length.
  assert (Hs : N.size x <= 256).
  { destruct (N.eq_dec x 0) as [->|Hx]; [done|]. rewrite N.size_log2 by done.
    assert (N.log2 x < 256); [|lia]. apply N.log2_lt_pow2; lia. }
  destruct (N.ltb_spec 256 (N.size x)); [lia|].
  exists (256 - N.size x). split; [done|]. split; [lia|].
  replace (256 - (256 - N.size x)) with (N.size x) by lia.
  split; [apply N.size_gt|]. intros Hx. rewrite N.size_log2 by done.
  rewrite N.pow_succ_r by lia. pose proof (N.log2_spec x ltac:(lia)). lia.
Qed.

Lemma N_bits_lt x n : x < 2 ^ n -> forall i, n <= i -> N.testbit x i = false.
Proof.
  intros H i Hi. destruct (N.eq_dec x 0) as [->|Hx]; [apply N.bits_0|].
  apply N.bits_above_log2. apply N.log2_lt_pow2; [lia|].
  eapply N.lt_le_trans; [done|]. apply N.pow_le_mono_r; lia.
Qed.
Lemma N_lt_bits x n : (forall i, n <= i -> N.testbit x i = false) -> x < 2 ^ n.
Proof.
  intros H. destruct (N.lt_ge_cases x (2 ^ n)) as [|Hge]; [done|]. exfalso.
  assert (Hp : 2 ^ n <> 0) by (apply N.pow_nonzero; lia).
  assert (Hx : x <> 0) by (intros ->; lia).
  assert (Hn : n <= N.log2 x) by (apply N.log2_le_pow2; lia).
  specialize (H _ Hn). rewrite N.bit_log2 in H; done.
Qed.
Lemma land_lt x y n : x < 2 ^ n -> N.land x y < 2 ^ n.
Proof. intros H. apply N_lt_bits. intros i Hi. rewrite N.land_spec, (N_bits_lt x n) by done. done. Qed.
Lemma lor_lt x y n : x < 2 ^ n -> y < 2 ^ n -> N.lor x y < 2 ^ n.
Proof.
  intros H1 H2. apply N_lt_bits. intros i Hi.
  rewrite N.lor_spec, (N_bits_lt x n), (N_bits_lt y n) by done. done.
Qed.
Lemma lxor_lt x y n : x < 2 ^ n -> y < 2 ^ n -> N.lxor x y < 2 ^ n.
Proof.
  intros H1 H2. apply N_lt_bits. intros i Hi.
  rewrite N.lxor_spec, (N_bits_lt x n), (N_bits_lt y n) by done. done.
Qed.
