(** * PropCurve: C90, recovery of public keys on secp256k1.

    [secp256k1_recover] turns down a signature whose [r] is not the first
    coordinate of a point of the curve, by the criterion of Euler, and asks
    coincurve otherwise. *)
From Verif Require Import Base State Vm Instructions Precompiles Interpreter NumericProofs Bloom Transactions Trie Blocks Requests Fork PropTx EvmExamples ForkExamples
  Fermat Curve.
From Coq Require Import ZifyBool ZifyN ZifyNat Znumtheory.
Ltac Zify.zify_post_hook ::= idtac.
Local Open Scope N_scope.

(** A point [(x, y)] of the curve modulo [p] *)
Definition curve_point (p x y : N) : Prop := y < p /\ (y * y) mod p = (x * x * x + 7) mod p.

Lemma square_eq x : x ^ 2 = x * x.
Proof. apply N.pow_2_r. Qed.
Lemma cube_eq x : x ^ 3 = x * x * x.
Proof. change 3 with (N.succ 2). rewrite N.pow_succ_r', N.pow_2_r. lia. Qed.

Section Modulo.
  Context (p : N) (Hp : 7 < p).

  Lemma cube_mod x : pow_mod x 3 p = (x * x * x) mod p.
  Proof. rewrite pow_mod_spec by lia. by rewrite cube_eq. Qed.

  (** If [p] is 3 modulo 4, a power of [a] is a square root of it. *)
  Lemma euler_root a : p mod 4 = 3 -> a ^ ((p - 1) / 2) mod p = 1 ->
    (a ^ ((p + 1) / 4) * a ^ ((p + 1) / 4)) mod p = a mod p.
  Proof.
    intros H4 H. rewrite <- N.pow_add_r.
    pose proof (N.div_mod p 4 ltac:(lia)) as D. rewrite H4 in D. set (k := p / 4) in *.
    assert (E1 : (p - 1) / 2 = 2 * k + 1) by (symmetry; apply (N.div_unique _ _ _ 0); lia).
    assert (E2 : (p + 1) / 4 = k + 1) by (symmetry; apply (N.div_unique _ _ _ 0); lia).
    rewrite E1 in H. rewrite E2. replace (k + 1 + (k + 1)) with (N.succ (2 * k + 1)) by lia.
    rewrite N.pow_succ_r', N.mul_comm, N.mul_mod, H, N.mul_1_l, N.mod_mod by lia. done.
  Qed.

  Lemma other_root y : y <= p -> ((p - y) * (p - y)) mod p = (y * y) mod p.
  Proof.
    intros Hy. pose proof (N.mod_mul (p - 2 * y) p ltac:(lia)).
    assert (E : (p - y) * (p - y) + 2 * y * p = y * y + p * p) by nia.
    rewrite <- (N.mod_add ((p - y) * (p - y)) (2 * y) p), E, N.mod_add by lia. done.
  Qed.
End Modulo.

(** ** The modulus is prime *)

Lemma mod_pow p a n : p <> 0 -> (a mod p) ^ n mod p = a ^ n mod p.
Proof.
  intros Hp. induction n as [|n IH] using N.peano_ind; [done|]. rewrite !N.pow_succ_r'. rewrite N.mul_mod_idemp_l by lia.
  rewrite <- N.mul_mod_idemp_r, IH, N.mul_mod_idemp_r by lia. done.
Qed.
Lemma gcd_of_N a b : Z.of_N (N.gcd a b) = Z.gcd (Z.of_N a) (Z.of_N b).
Proof. by destruct a, b. Qed.
Definition certified (n q k a : N) : bool :=
  (1 <? n) && (0 <? k) && (n =? k * q + 1) &&
  (let b := pow_mod a k n in (pow_mod b q n =? 1) && (N.gcd (b + (n - 1)) n =? 1)).
Lemma certified_ok n q k a d : certified n q k a = true -> prime (Z.of_N q) -> prime d -> (d | Z.of_N n)%Z ->
  (Z.of_N q | d - 1)%Z.
Proof.
  unfold certified. intros H Hq Hd HD. apply andb_prop in H as [H H5].
  apply andb_prop in H as [H H3]. apply andb_prop in H as [H1 H2]. apply andb_prop in H5 as [H4 H5].
  apply N.ltb_lt in H1, H2. apply N.eqb_eq in H3, H4, H5.
  rewrite (pow_mod_spec _ k) in H4, H5 by lia. rewrite pow_mod_spec, mod_pow, <- N.pow_mul_r in H4 by lia.
  replace (k * q) with (n - 1) in H4 by lia.
  apply (pocklington_divisor (Z.of_N n) (Z.of_N q) (Z.of_N k) (Z.of_N a) d); try done; try lia.
  - apply (f_equal Z.of_N) in H4. rewrite N2Z.inj_mod, N2Z.inj_pow, N2Z.inj_sub in H4 by lia. exact H4.
  - apply (f_equal Z.of_N) in H5. rewrite gcd_of_N, N2Z.inj_add, N2Z.inj_mod, N2Z.inj_pow, N2Z.inj_sub in H5 by lia.
    change (Z.of_N 1) with 1%Z in H5. rewrite Z.gcd_comm in H5. rewrite Z.gcd_comm.
    rewrite <- (Z.gcd_mod _ (Z.of_N n)) in H5 by lia. rewrite <- (Z.gcd_mod _ (Z.of_N n)) by lia.
    etransitivity; [|exact H5]. f_equal. rewrite Z.add_mod_idemp_l by lia.
    replace (Z.of_N a ^ Z.of_N k + (Z.of_N n - 1))%Z with (Z.of_N a ^ Z.of_N k - 1 + 1 * Z.of_N n)%Z by lia.
    rewrite Z.mod_add by lia. done.
Qed.

Lemma prime_a : prime 107590001.
Proof. apply (trial_division _ (N.to_nat 10400)); [lia|]. vm_compute. reflexivity. Qed.
Lemma prime_b : prime 7240687.
Proof. apply (trial_division _ (N.to_nat 2700)); [lia|]. vm_compute. reflexivity. Qed.
Lemma prime_c : prime 96557.
Proof. apply (trial_division _ (N.to_nat 400)); [lia|]. vm_compute. reflexivity. Qed.

Lemma coprime_primes p q : prime p -> prime q -> p <> q -> rel_prime p q.
Proof.
  intros Hp Hq Hn. apply prime_rel_prime; [done|]. intros D. apply prime_divisors in D; [|done].
  pose proof (prime_ge_2 p Hp). pose proof (prime_ge_2 q Hq). lia.
Qed.
Lemma prime_d : prime (Z.of_N 255515944373312847190720520512484175977).
Proof.
  apply (pocklington _ (107590001 * (7240687 * 96557))%Z); [done|done|done|]. intros d Hd HD.
  assert (A : (Z.of_N 107590001 | d - 1)%Z).
  { apply (certified_ok 255515944373312847190720520512484175977 _ 2374904191824599455024826335976 2);
      [vm_compute; reflexivity|apply prime_a|done|done]. }
  assert (B : (Z.of_N 7240687 | d - 1)%Z).
  { apply (certified_ok 255515944373312847190720520512484175977 _ 35288908963101546467996824129048 2);
      [vm_compute; reflexivity|apply prime_b|done|done]. }
  assert (C : (Z.of_N 96557 | d - 1)%Z).
  { apply (certified_ok 255515944373312847190720520512484175977 _ 2646270538369179315748423423599368 2);
      [vm_compute; reflexivity|apply prime_c|done|done]. }
  cbn in A, B, C.
  pose proof (coprime_primes _ _ prime_b prime_c ltac:(done)) as BC.
  pose proof (coprime_primes _ _ prime_a prime_b ltac:(done)) as AB.
  pose proof (coprime_primes _ _ prime_a prime_c ltac:(done)) as AC.
  destruct A as (x & Ex).
  assert (Bx : (7240687 | x)%Z).
  { apply (Gauss _ 107590001); [|by apply rel_prime_sym]. rewrite Z.mul_comm, <- Ex. done. }
  destruct Bx as (y & ->).
  assert (Cy : (96557 | y)%Z).
  { apply (Gauss _ (107590001 * 7240687)); [|apply rel_prime_mult; by apply rel_prime_sym].
    replace (107590001 * 7240687 * y)%Z with (y * 7240687 * 107590001)%Z by ring. rewrite <- Ex. done. }
  destruct Cy as (z & ->). exists z. lia.
Qed.
Lemma prime_e : prime (Z.of_N 205115282021455665897114700593932402728804164701536103180137503955397371).
Proof.
  apply (pocklington _ 255515944373312847190720520512484175977%Z); [done|done|done|]. intros d Hd HD.
  apply (certified_ok 205115282021455665897114700593932402728804164701536103180137503955397371
    255515944373312847190720520512484175977 802749442992798076634733441528810 2);
    [vm_compute; reflexivity|apply prime_d|done|done].
Qed.
(** The modulus of the curve is a prime number. *)
Theorem C90_prime : prime (Z.of_N SECP256K1P).
Proof.
  apply (pocklington _ 205115282021455665897114700593932402728804164701536103180137503955397371%Z); [done|done|done|].
  intros d Hd HD.
  apply (certified_ok SECP256K1P
    205115282021455665897114700593932402728804164701536103180137503955397371 564522 2);
    [vm_compute; reflexivity|apply prime_e|done|done].
Qed.

(** ** The criterion of Euler *)

Section Prime.
  Context (p : N) (Hp : 7 < p) (Pp : prime (Z.of_N p)).

  Lemma fermat_N a : a mod p <> 0 -> a ^ (p - 1) mod p = 1.
  Proof.
    intros Ha. apply N2Z.inj. rewrite N2Z.inj_mod, N2Z.inj_pow, N2Z.inj_sub by lia. apply fermat; [done|].
    intros D. apply Z.mod_divide in D; [|lia]. apply Ha. apply N2Z.inj. by rewrite N2Z.inj_mod.
  Qed.
  Lemma pow_mod_base a n : (a mod p) ^ n mod p = a ^ n mod p.
  Proof. apply mod_pow. lia. Qed.
  Lemma no_zero_divisor a b : (a * b) mod p = 0 -> a mod p = 0 \/ b mod p = 0.
  Proof.
    intros H. apply (f_equal Z.of_N) in H. rewrite N2Z.inj_mod, N2Z.inj_mul in H.
    apply Z.mod_divide in H; [|lia]. apply prime_mult in H; [|done].
    destruct H as [H|H]; [left|right]; apply N2Z.inj; rewrite N2Z.inj_mod; apply Z.mod_divide; (lia || done).
  Qed.

  (** Squares other than zero meet the criterion. *)
  Lemma euler_square a y : p mod 2 = 1 -> (y * y) mod p = a mod p -> a mod p <> 0 -> a ^ ((p - 1) / 2) mod p = 1.
  Proof.
    intros H2 E Ha. pose proof (N.div_mod p 2 ltac:(lia)) as D. rewrite H2 in D. set (k := p / 2) in *.
    assert (E1 : (p - 1) / 2 = k) by (symmetry; apply (N.div_unique _ _ _ 0); lia). rewrite E1.
    rewrite <- pow_mod_base, <- E, pow_mod_base.
    rewrite <- square_eq.
    rewrite <- N.pow_mul_r. replace (2 * k) with (p - 1) by lia. apply fermat_N.
    intros Hy. apply Ha. rewrite <- E. rewrite N.mul_mod, Hy by lia. rewrite N.mul_0_l. apply N.mod_0_l. lia.
  Qed.

  (** A square has two roots. *)
  Lemma roots y z : 0 < y -> y < p -> z < p -> (z * z) mod p = (y * y) mod p -> z = y \/ z = p - y.
  Proof.
    intros Y0 Hy Hz Ez. assert (Ep : exists o, p = y + o /\ 0 < o) by (exists (p - y); lia). destruct Ep as (o & Ep & Ho).
    assert (HZ : (((z + y) * (z + o)) mod p = 0)).
    { replace ((z + y) * (z + o)) with (z * z + o * y + z * p) by (rewrite Ep; ring).
      rewrite N.mod_add by lia. rewrite N.add_mod, Ez, <- N.add_mod by lia.
      replace (y * y + o * y) with (y * p) by (rewrite Ep; ring). apply N.mod_mul. lia. }
    apply no_zero_divisor in HZ as [HZ|HZ]; (apply N.mod_divide in HZ as (c & Hc); [|lia]); clear -Hc Ep Hy Hz Y0 Ho.
    - right. assert (c = 1) by nia. subst c. lia.
    - left. assert (c = 1) by nia. subst c. lia.
  Qed.

  (** No point has second coordinate zero. *)
  Lemma no_root x : p mod 3 = 1 -> (p - 7) ^ ((p - 1) / 3) mod p <> 1 -> (x * x * x + 7) mod p <> 0.
  Proof.
    intros H3 H7 E. apply H7. clear H7. pose proof (N.div_mod p 3 ltac:(lia)) as D. rewrite H3 in D. set (k := p / 3) in *. clearbody k.
    assert (E1 : (p - 1) / 3 = k) by (symmetry; apply (N.div_unique _ _ _ 0); clear -D; lia). rewrite E1.
    clear E1 H3.
    assert (EX : (x ^ 3) mod p = (p - 7) mod p).
    { rewrite cube_eq.
      rewrite <- (N.mod_add (x * x * x) 1 p) by lia.
      replace (x * x * x + 1 * p) with (x * x * x + 7 + (p - 7)) by lia.
      rewrite <- N.add_mod_idemp_l, E by lia. by rewrite N.add_0_l. }
    rewrite <- pow_mod_base, <- EX, pow_mod_base, <- N.pow_mul_r. replace (3 * k) with (p - 1) by (clear -D; lia).
    apply fermat_N. intros Hx.
    assert (x ^ 3 mod p = 0).
    { rewrite cube_eq, N.mul_mod, Hx, N.mul_0_r by lia. apply N.mod_0_l. lia. }
    rewrite EX, N.mod_small in H by (clear -Hp; lia). clear -H Hp. lia.
  Qed.
End Prime.

(** ** C90 *)

(** What coincurve is given: [r], [s] and [v] in 32, 32 and 1 bytes *)
Definition signature_of (r s v : N) (b : bytes) : Prop :=
  exists rb sb vb, b = rb ++ sb ++ vb /\
    lenN rb = 32 /\ from_be_bytes rb = r /\ lenN sb = 32 /\ from_be_bytes sb = s /\ lenN vb = 1 /\ from_be_bytes vb = v.
Lemma signature_ok r s v : r < 2 ^ 256 -> s < 2 ^ 256 -> v < 256 ->
  signature_of r s v (to_be_bytes32 r ++ to_be_bytes32 s ++ [byte_of_N v]).
Proof.
  intros Hr Hs Hv. exists (to_be_bytes32 r), (to_be_bytes32 s), [byte_of_N v]. split; [done|].
  rewrite !lenN_to_be_bytes32, !from_to_be_bytes32 by done. repeat split.
  unfold from_be_bytes. cbn [fold_left]. by rewrite byte_of_N_to_N.
Qed.

Lemma word_of x b : lenN b = 32 -> from_be_bytes b = x -> b = to_be_bytes32 x.
Proof.
  intros L <-. unfold to_be_bytes32. replace 32%nat with (length b) by (unfold lenN in L; lia).
  symmetry. apply to_from_be_fixed.
Qed.

Section C90.
  Local Opaque SECP256K1P.
  Lemma p_big : 7 < SECP256K1P /\ SECP256K1P + 7 < 2 ^ 256.
  Proof. split; vm_compute; reflexivity. Qed.
  Lemma p_4 : SECP256K1P mod 4 = 3. Proof. vm_compute. reflexivity. Qed.
  Lemma p_3 : SECP256K1P mod 3 = 1. Proof. vm_compute. reflexivity. Qed.
  Lemma p_2 : SECP256K1P mod 2 = 1. Proof. vm_compute. reflexivity. Qed.
  Lemma p_7 : (SECP256K1P - 7) ^ ((SECP256K1P - 1) / 3) mod SECP256K1P <> 1.
  Proof.
    rewrite <- pow_mod_spec by (pose proof p_big; lia).
    assert (H : (pow_mod (SECP256K1P - 7) ((SECP256K1P - 1) / 3) SECP256K1P =? 1) = false) by (vm_compute; reflexivity).
    by apply N.eqb_neq in H.
  Qed.

  (** The sum does not overflow. *)
  Lemma is_square_eq r :
    is_square r = Done ((r * r * r + 7) ^ ((SECP256K1P - 1) / 2) mod SECP256K1P).
  Proof.
    pose proof p_big as [H1 H2]. unfold is_square. rewrite cube_mod by done.
    pose proof (N.mod_lt (r * r * r) SECP256K1P ltac:(lia)). unfold to_u256, SECP256K1B.
    destruct (N.ltb_spec ((r * r * r) mod SECP256K1P + 7) U256_CEIL) as [_|Hl]; [|exfalso; revert Hl; unfold U256_CEIL; lia].
    cbn [of_result obind]. rewrite pow_mod_spec by lia.
    rewrite <- pow_mod_base, N.add_mod_idemp_l, pow_mod_base by done. done.
  Qed.

  (** The check of [r] *)
  Lemma checked r : exists q, is_square r = Done q /\
    (q = 1 <-> exists y, curve_point SECP256K1P r y).
  Proof.
    pose proof p_big as [H1 H2]. rewrite is_square_eq. eexists. split; [done|]. split.
    - intros E. apply euler_root in E; [|done|apply p_4].
      set (y := (r * r * r + 7) ^ ((SECP256K1P + 1) / 4)) in *.
      exists (y mod SECP256K1P). split; [apply N.mod_lt; lia|].
      rewrite N.mul_mod_idemp_l, N.mul_mod_idemp_r by lia. exact E.
    - intros (y & _ & E). apply (euler_square SECP256K1P H1 C90_prime _ y); [apply p_2|done|].
      apply (no_root SECP256K1P H1 C90_prime); [apply p_3|apply p_7].
  Qed.

  (** If there is a point, there are two: one with an even and one with an odd
      second coordinate, the two that [v] tells apart. *)
  Theorem C90_points r y : curve_point SECP256K1P r y ->
    exists y0 y1, curve_point SECP256K1P r y0 /\ curve_point SECP256K1P r y1 /\ y0 mod 2 = 0 /\ y1 mod 2 = 1 /\
      forall z, curve_point SECP256K1P r z -> z = y0 \/ z = y1.
  Proof.
    intros (Hy & E). pose proof p_big as [H1 H2].
    assert (Y0 : y <> 0).
    { intros ->. apply (no_root SECP256K1P H1 C90_prime r); [apply p_3|apply p_7|]. rewrite <- E. apply N.mod_0_l. lia. }
    assert (O : curve_point SECP256K1P r (SECP256K1P - y)).
    { split; [lia|]. rewrite other_root by lia. done. }
    assert (U : forall z, curve_point SECP256K1P r z -> z = y \/ z = SECP256K1P - y).
    { intros z (Hz & Ez). rewrite <- E in Ez. apply (roots SECP256K1P H1 C90_prime); [lia|done|done|done]. }
    pose proof (N.div_mod SECP256K1P 2 ltac:(lia)) as D. rewrite p_2 in D.
    pose proof (N.div_mod y 2 ltac:(lia)) as DY. pose proof (N.mod_lt y 2 ltac:(lia)) as LY.
    pose proof (N.div_mod (SECP256K1P - y) 2 ltac:(lia)) as DZ. pose proof (N.mod_lt (SECP256K1P - y) 2 ltac:(lia)) as LZ.
    destruct (decide (y mod 2 = 0)) as [P|P].
    - exists y, (SECP256K1P - y). split; [by split|]. split; [done|]. split; [done|]. split; [lia|done].
    - exists (SECP256K1P - y), y. split; [done|]. split; [by split|]. split; [lia|]. split; [lia|].
      intros z Hz. destruct (U z Hz); tauto.
  Qed.

  Context (coincurve : bytes -> bytes -> option bytes).

  (** A key is recovered exactly if [r] is the first coordinate of a point and
      coincurve finds a key; the key is the answer of coincurve without the
      byte of its format. *)
  Theorem C90_recover r s v hash key : r < 2 ^ 256 -> s < 2 ^ 256 -> v < 256 ->
    recover_key coincurve r s v hash = Done key <->
    (exists y, curve_point SECP256K1P r y) /\
    exists sig k, signature_of r s v sig /\ coincurve sig hash = Some k /\ key = skipn 1 k.
  Proof.
    intros Hr Hs Hv. destruct (checked r) as (q & Eq & Hq). unfold recover_key. rewrite Eq. cbn [obind].
    rewrite (proj2 (N.ltb_lt v 256) Hv). cbn [negb].
    pose proof (signature_ok r s v Hr Hs Hv) as HS.
    assert (UN : forall b, signature_of r s v b -> b = to_be_bytes32 r ++ to_be_bytes32 s ++ [byte_of_N v]).
    { intros b (rb & sb & vb & -> & L1 & E1 & L2 & E2 & L3 & E3).
      rewrite (word_of r rb L1 E1), (word_of s sb L2 E2). destruct vb as [|c [|]]; [done| |rewrite !lenN_cons in L3; lia].
      do 2 f_equal. f_equal. unfold from_be_bytes in E3. cbn [fold_left] in E3.
      rewrite <- E3. rewrite N.mul_0_l, N.add_0_l. by rewrite byte_to_N_of_N. }
    destruct (N.eqb_spec q 1) as [E|E]; cbn [negb].
    - destruct (coincurve _ hash) as [k|] eqn:EC.
      + split.
        * intros [= <-]. split; [by apply Hq|]. eexists _, k. split; [exact HS|]. split; [done|]. by rewrite dropN_skipn.
        * intros (_ & b & k' & Hb & Ek & ->). apply UN in Hb as ->. rewrite EC in Ek. injection Ek as <-.
          by rewrite dropN_skipn.
      + split; [done|]. intros (_ & b & k' & Hb & Ek & ->). apply UN in Hb as ->. congruence.
    - split; [done|]. intros (HY & _). apply Hq in HY. done.
  Qed.
  (** Otherwise the signature is invalid: nothing else is raised. *)
  Theorem C90_reject r s v hash e : v < 256 ->
    recover_key coincurve r s v hash = Fail e -> e = FInvalidTransaction InvalidSignatureError.
  Proof.
    intros Hv. destruct (checked r) as (q & Eq & Hq). unfold recover_key. rewrite Eq. cbn [obind].
    rewrite (proj2 (N.ltb_lt v 256) Hv). cbn [negb].
    destruct (negb (q =? 1)); [by intros [= <-]|]. destruct coincurve; [done|by intros [= <-]].
  Qed.

  (** The senders of accepted transactions: [r] is the first coordinate of a
      point. *)
  Theorem C90_sender cr chain_id tx a : recover_sender (with_coincurve cr coincurve) chain_id tx = Done a ->
    exists y, curve_point SECP256K1P (tx_r tx) y.
  Proof.
    intros H. apply C29_sender in H as (parity & key & Hv & _ & _ & H & _).
    cbn [with_coincurve secp256k1_recover] in H.
    destruct (recover_key _ _ _ _ _) as [k|] eqn:E; [|done]. clear H.
    destruct (checked (tx_r tx)) as (q & Eq & Hq). unfold recover_key in E. rewrite Eq in E. cbn [obind] in E.
    destruct (N.eqb_spec q 1) as [E1|E1]; [by apply Hq|done].
  Qed.
End C90.
(** The record used for the rest of the model hides no exception: its callers
    pass a [v] of 0 or 1. *)
Theorem C90_exact cr coincurve r s v hash : v <= 1 ->
  recover_with (with_coincurve cr coincurve) r s v hash = recover_key coincurve r s v hash.
Proof.
  intros Hv. unfold recover_with. cbn [with_coincurve secp256k1_recover].
  destruct (recover_key coincurve r s v hash) as [k|e] eqn:E; [done|].
  apply C90_reject in E as ->; [done|lia].
Qed.
Lemma ex_point : curve_point SECP256K1P 1 29896722852569046015560700294576055776214335159245303116488692907525646231534.
Proof. split; vm_compute; reflexivity. Qed.
(** A larger [v] is not an invalid signature but a ValueError. *)
Theorem C90_sign_refuted coincurve : exists r s v hash,
  r < 2 ^ 256 /\ s < 2 ^ 256 /\ v < 2 ^ 256 /\ recover_key coincurve r s v hash = Fail (FCrash ValueError).
Proof.
  exists 1, 1, 256, []. split; [vm_compute; reflexivity|]. split; [vm_compute; reflexivity|].
  split; [vm_compute; reflexivity|]. destruct (checked 1) as (q & Eq & Hq). unfold recover_key. rewrite Eq. cbn [obind].
  rewrite (proj2 Hq) by (eexists; apply ex_point). done.
Qed.

(** ** A concrete case *)

(** There are points with first coordinate 1. *)
Definition ex_coincurve (sig hash : bytes) : option bytes := Some (Byte.x04 :: takeN 64 sig).
Example C90_nonvacuous :
  curve_point SECP256K1P 1 29896722852569046015560700294576055776214335159245303116488692907525646231534 /\
  recover_key ex_coincurve 1 2 0 [] = Done (to_be_bytes32 1 ++ to_be_bytes32 2) /\
  exists a, recover_sender (with_coincurve ex_crypto ex_coincurve) 1
    (Legacy (LegacyTx 0 7 21000 (Some 0xbbbb) 0 [] 27 1 2)) = Done a.
Proof.
  assert (H : forall hash, recover_key ex_coincurve 1 2 0 hash = Done (to_be_bytes32 1 ++ to_be_bytes32 2)).
  { intros hash. destruct (checked 1) as (q & Eq & Hq). unfold recover_key. rewrite Eq. cbn [obind].
    rewrite (proj2 Hq) by (eexists; apply ex_point). vm_compute. reflexivity. }
  split; [apply ex_point|]. split; [apply H|]. eexists. unfold recover_sender. cbn [tx_r tx_s lt_r lt_s lt_v].
  change ((1 <=? 0) || (SECP256K1N <=? 1)) with false. change ((2 <=? 0) || (SECP256K1N / 2 <? 2)) with false.
  change ((27 =? 27) || (27 =? 28)) with true. cbv iota. rewrite C90_exact by lia. change (27 - 27) with 0. rewrite H. done.
Qed.

Definition PropCurve_theorems :=
  (@C90_prime, @C90_points, @C90_recover, @C90_reject, @C90_sender, @C90_exact, @C90_sign_refuted).
Print Assumptions PropCurve_theorems.
