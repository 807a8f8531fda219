(** * PrecompileSpec: reference description of the precompiled contracts (C58).

    The price and the answer of the eighteen precompiled contracts, written
    from the EIPs, RFC 7693 and the Yellow Paper in terms of the numbers the
    input encodes.  Hash functions, group operations, pairings and signature
    recovery are those of the record [crypto].  The theorems about the simple
    contracts are here, the others in PropPrecompiles.v. *)
From Verif Require Import Base State Rlp Vm Instructions Precompiles Interpreter
  StateSpec StateProofs NumericProofs ArithProofs EvmStep InstrSpec InstrProofs EvmExamples.
From Coq Require Import ZifyBool ZifyN ZifyNat.
Ltac Zify.zify_post_hook ::= idtac.

(** ** How a precompiled contract ends *)

Inductive answer :=
| Output (out : bytes)
| Silent
| Fails (x : halt).

(** Contract [a], called with [d], charges [price] and gives [r]; nothing
    else in the frame and nothing in the world changes.  With less gas than
    the price it fails. *)
Definition answers (cr : crypto) (a : address) (d : bytes) (price : N) (r : answer) : Prop :=
  exists op, pre_compiled_contracts cr Osaka a = Some op /\
  forall e w, m_data (e_message e) = d ->
    op e w =
      if e_gas_left e <? price then Exc (EHalt OutOfGasError) e w
      else let e' := set_gas_left (e_gas_left e - price) e in
           match r with
           | Output out => Ret tt (set_output out e') w
           | Silent => Ret tt e' w
           | Fails x => Exc (EHalt x) e' w
           end.
(** It fails before charging anything. *)
Definition rejects (cr : crypto) (a : address) (d : bytes) (x : halt) : Prop :=
  exists op, pre_compiled_contracts cr Osaka a = Some op /\
  forall e w, m_data (e_message e) = d -> op e w = Exc (EHalt x) e w.

(** ** Numbers in the input *)

(** Byte [i] of the input followed by zeros without end. *)
Definition byte_at (d : bytes) (i : N) : N :=
  match nth_error d (N.to_nat i) with Some b => Byte.to_N b | None => 0 end.
Fixpoint big_endian (d : bytes) (start : N) (n : nat) : N :=
  match n with
  | O => 0
  | S n => 256 * big_endian d start n + byte_at d (start + N.of_nat n)
  end.
(** The [n]-byte big-endian number at [start]. *)
Definition number (d : bytes) (start n : N) : N := big_endian d start (N.to_nat n).
Fixpoint little_endian (d : bytes) (start : N) (n : nat) : N :=
  match n with
  | O => 0
  | S n => byte_at d start + 256 * little_endian d (start + 1) n
  end.
(** A number as [n] big-endian bytes: C58_encoding. *)
Notation encode := to_be_fixed.

(** ** Modular exponentiation, EIP-198, 2565, 7823 and 7883 *)
Definition modexp_price (bl el ml head : N) : N :=
  let size := N.max bl ml in
  let complexity := if size <=? 32 then 16 else 2 * ((size + 7) / 8) ^ 2 in
  let iterations := (if el <=? 32 then 0 else 16 * (el - 32)) + N.log2 head in
  N.max 500 (complexity * N.max iterations 1).

(** ** Curves *)

(** [y^2 = x^3 + b] modulo [P]; all zeros is the point at infinity. *)
Definition on_curve (P b : N) (p : g1_point) : Prop :=
  p.1 < P /\ p.2 < P /\ (p = (0, 0) \/ (p.2 ^ 2) mod P = (p.1 ^ 3 + b) mod P).
(** The same over the field with [i^2 = -1]: the real and the imaginary part
    of [y^2 - x^3]. *)
Definition twist_re (q : g2_point) : Z :=
  let '((a, b), (c, d)) := q in
  (Z.of_N c ^ 2 - Z.of_N d ^ 2 - (Z.of_N a ^ 3 - 3 * Z.of_N a * Z.of_N b ^ 2))%Z.
Definition twist_im (q : g2_point) : Z :=
  let '((a, b), (c, d)) := q in
  (2 * Z.of_N c * Z.of_N d - (3 * Z.of_N a ^ 2 * Z.of_N b - Z.of_N b ^ 3))%Z.
Definition reduced2 (P : N) (q : g2_point) : Prop :=
  q.1.1 < P /\ q.1.2 < P /\ q.2.1 < P /\ q.2.2 < P.
Definition infinity2 : g2_point := ((0, 0), (0, 0)).

(** alt_bn128, EIP-196 and 197 *)
Definition bn_P : N := 0x30644e72e131a029b85045b68181585d97816a916871ca8d3c208c16d87cfd47.
Definition bn_R : N := 0x30644e72e131a029b85045b68181585d2833e84879b9709143e1f593f0000001.
Definition bn_point (d : bytes) (s : N) (p : g1_point) : Prop :=
  p = (number d s 32, number d (s + 32) 32) /\ on_curve bn_P 3 p.
(** [y^2 = x^3 + 3 / (9 + i)]; imaginary parts come first. *)
Definition bn_twist_point (d : bytes) (s : N) (q : g2_point) : Prop :=
  q = ((number d (s + 32) 32, number d s 32),
       (number d (s + 96) 32, number d (s + 64) 32)) /\
  reduced2 bn_P q /\
  (q = infinity2 \/
   ((9 * twist_re q - twist_im q) mod Z.of_N bn_P = 3 /\
    (9 * twist_im q + twist_re q) mod Z.of_N bn_P = 0)%Z).

(** BLS12-381, EIP-2537 *)
Definition bls_P : N :=
  0x1a0111ea397fe69a4b1ba7b6434bacd764774b84f38512bf6730d2a0f6b0f6241eabfffeb153ffffb9feffffffffaaab.
Definition bls_R : N := 0x73eda753299d7d483339d80809a1d80553bda402fffe5bfeffffffff00000001.
Definition bls_point (d : bytes) (s : N) (p : g1_point) : Prop :=
  p = (number d s 64, number d (s + 64) 64) /\ on_curve bls_P 4 p.
(** [y^2 = x^3 + 4 (1 + i)]; real parts come first. *)
Definition bls_twist_point (d : bytes) (s : N) (q : g2_point) : Prop :=
  q = ((number d s 64, number d (s + 64) 64),
       (number d (s + 128) 64, number d (s + 192) 64)) /\
  reduced2 bls_P q /\
  (q = infinity2 \/
   (twist_re q mod Z.of_N bls_P = 4 /\ twist_im q mod Z.of_N bls_P = 4)%Z).
Definition encode1 (n : nat) (p : g1_point) : bytes := encode n p.1 ++ encode n p.2.
Definition encode2 (n : nat) (q : g2_point) : bytes := encode1 n q.1 ++ encode1 n q.2.

(** The input is [k] records of [size] bytes, described by [R]. *)
Definition records {A} (size : N) (k : N) (R : N -> A -> Prop) (l : list A) : Prop :=
  lenN l = k /\ forall i x, nth_error l i = Some x -> R (size * N.of_nat i) x.
(** Records of the pairing checks and of the multiplications; each point must
    lie in the subgroup of prime order. *)
Definition bn_pair (cr : crypto) (d : bytes) (s : N) (x : g1_point * g2_point) : Prop :=
  bn_point d s x.1 /\ bn_twist_point d (s + 64) x.2 /\
  bn128_mul cr x.1 bn_R = (0, 0) /\ bn128_g2_mul cr x.2 bn_R = infinity2.
Definition bls_pair (cr : crypto) (d : bytes) (s : N) (x : g1_point * g2_point) : Prop :=
  bls_point d s x.1 /\ bls_twist_point d (s + 128) x.2 /\
  bls_g1_mul cr x.1 bls_R = (0, 0) /\ bls_g2_mul cr x.2 bls_R = infinity2.
Definition bls_term1 (cr : crypto) (d : bytes) (s : N) (x : g1_point * N) : Prop :=
  bls_point d s x.1 /\ bls_g1_mul cr x.1 bls_R = (0, 0) /\ x.2 = number d (s + 128) 32.
Definition bls_term2 (cr : crypto) (d : bytes) (s : N) (x : g2_point * N) : Prop :=
  bls_twist_point d s x.1 /\ bls_g2_mul cr x.1 bls_R = infinity2 /\
  x.2 = number d (s + 256) 32.
(** Sum of multiples. *)
Definition total {A} (add : A -> A -> A) (mul : A -> N -> A) (l : list (A * N)) (zero : A) : A :=
  match map (fun t => mul t.1 t.2) l with
  | [] => zero
  | x :: rest => fold_left add rest x
  end.

(** Discounts in thousandths, EIP-2537. *)
Definition discounts1 : list N :=
  [1000; 949; 848; 797; 764; 750; 738; 728; 719; 712; 705; 698; 692; 687; 682; 677; 673; 669;
   665; 661; 658; 654; 651; 648; 645; 642; 640; 637; 635; 632; 630; 627; 625; 623; 621; 619;
   617; 615; 613; 611; 609; 608; 606; 604; 603; 601; 599; 598; 596; 595; 593; 592; 591; 589;
   588; 586; 585; 584; 582; 581; 580; 579; 577; 576; 575; 574; 573; 572; 570; 569; 568; 567;
   566; 565; 564; 563; 562; 561; 560; 559; 558; 557; 556; 555; 554; 553; 552; 551; 550; 549;
   548; 547; 547; 546; 545; 544; 543; 542; 541; 540; 540; 539; 538; 537; 536; 536; 535; 534;
   533; 532; 532; 531; 530; 529; 528; 528; 527; 526; 525; 525; 524; 523; 522; 522; 521; 520;
   520; 519].
Definition discounts2 : list N :=
  [1000; 1000; 923; 884; 855; 832; 812; 796; 782; 770; 759; 749; 740; 732; 724; 717; 711; 704;
   699; 693; 688; 683; 679; 674; 670; 666; 663; 659; 655; 652; 649; 646; 643; 640; 637; 634;
   632; 629; 627; 624; 622; 620; 618; 615; 613; 611; 609; 607; 606; 604; 602; 600; 598; 597;
   595; 593; 592; 590; 589; 587; 586; 584; 583; 582; 580; 579; 578; 576; 575; 574; 573; 571;
   570; 569; 568; 567; 566; 565; 563; 562; 561; 560; 559; 558; 557; 556; 555; 554; 553; 552;
   552; 551; 550; 549; 548; 547; 546; 545; 545; 544; 543; 542; 541; 541; 540; 539; 538; 537;
   537; 536; 535; 535; 534; 533; 532; 532; 531; 530; 530; 529; 528; 528; 527; 526; 526; 525;
   524; 524].
(** The discount for [k] terms; beyond the table, its last entry. *)
Definition discount (table : list N) (k : N) : N :=
  nth (Nat.min (N.to_nat k) (length table) - 1) table 0.

(** ** BLAKE2b compression, RFC 7693 *)

Definition ror64 (x n : N) : N := x / 2 ^ n + (x mod 2 ^ n) * 2 ^ (64 - n).
Definition add64 (x y : N) : N := (x + y) mod 2 ^ 64.
(** RFC 7693, 3.1 *)
Definition mix (x y : N) (q : N * N * N * N) : N * N * N * N :=
  let '(a, b, c, d) := q in
  let a := add64 (add64 a b) x in
  let d := ror64 (N.lxor d a) 32 in
  let c := add64 c d in
  let b := ror64 (N.lxor b c) 24 in
  let a := add64 (add64 a b) y in
  let d := ror64 (N.lxor d a) 16 in
  let c := add64 c d in
  let b := ror64 (N.lxor b c) 63 in
  (a, b, c, d).
(** The message schedule, 2.7: one hexadecimal digit per word. *)
Definition schedule : list N :=
  [0x0123456789abcdef; 0xea489fd61c02b753; 0xb8c052fdae367194; 0x7931dcbe265a40f8;
   0x905724afe1bc683d; 0x2c6a0b834d75fe19; 0xc51fed4a0763928b; 0xdb7ec13950f4862a;
   0x6fe9b308c2d714a5; 0xa2847615fb9e3cd0].
Definition chosen (m : list N) (round : nat) (j : N) : N :=
  nth (N.to_nat (nth (round mod 10) schedule 0 / 16 ^ (15 - j) mod 16)) m 0.
(** The sixteen words as four columns. *)
Notation quad := (N * N * N * N)%type.
Notation block := (quad * quad * quad * quad)%type.
(** Row [i] turned left by [i] places, and back. *)
Definition diagonals (v : block) : block :=
  let '((a0,b0,c0,d0), (a1,b1,c1,d1), (a2,b2,c2,d2), (a3,b3,c3,d3)) := v in
  ((a0,b1,c2,d3), (a1,b2,c3,d0), (a2,b3,c0,d1), (a3,b0,c1,d2)).
Definition columns (v : block) : block :=
  let '((a0,b1,c2,d3), (a1,b2,c3,d0), (a2,b3,c0,d1), (a3,b0,c1,d2)) := v in
  ((a0,b0,c0,d0), (a1,b1,c1,d1), (a2,b2,c2,d2), (a3,b3,c3,d3)).
Definition mix4 (pick : N -> N) (first : N) (v : block) : block :=
  let '(p, q, r, s) := v in
  (mix (pick first) (pick (first + 1)) p, mix (pick (first + 2)) (pick (first + 3)) q,
   mix (pick (first + 4)) (pick (first + 5)) r, mix (pick (first + 6)) (pick (first + 7)) s).
Definition one_round (m : list N) (round : nat) (v : block) : block :=
  columns (mix4 (chosen m round) 8 (diagonals (mix4 (chosen m round) 0 v))).
Fixpoint rounds (m : list N) (n : nat) (v : block) : block :=
  match n with O => v | S n => one_round m n (rounds m n v) end.
(** Fractions of the square roots of the first eight primes. *)
Definition iv (p : N) : N := N.sqrt (p * 2 ^ 128) mod 2 ^ 64.
Definition compressed (h : quad * quad) (m : list N) (n : nat) (t0 t1 : N) (last : bool)
  : list N :=
  let '((h0,h1,h2,h3), (h4,h5,h6,h7)) := h in
  let '((a0,b0,c0,d0), (a1,b1,c1,d1), (a2,b2,c2,d2), (a3,b3,c3,d3)) :=
    rounds m n
      ((h0, h4, iv 2, N.lxor (iv 11) t0), (h1, h5, iv 3, N.lxor (iv 13) t1),
       (h2, h6, iv 5, if last then 2 ^ 64 - 1 - iv 17 else iv 17), (h3, h7, iv 7, iv 19)) in
  [N.lxor h0 (N.lxor a0 c0); N.lxor h1 (N.lxor a1 c1);
   N.lxor h2 (N.lxor a2 c2); N.lxor h3 (N.lxor a3 c3);
   N.lxor h4 (N.lxor b0 d0); N.lxor h5 (N.lxor b1 d1);
   N.lxor h6 (N.lxor b2 d2); N.lxor h7 (N.lxor b3 d3)].
(** The input of EIP-152. *)
Definition word64 (d : bytes) (s : N) (i : N) : N := little_endian d (s + 8 * i) 8.
Definition blake2_answer (d : bytes) : list N :=
  compressed
    ((word64 d 4 0, word64 d 4 1, word64 d 4 2, word64 d 4 3),
     (word64 d 4 4, word64 d 4 5, word64 d 4 6, word64 d 4 7))
    (map (word64 d 68) [0; 1; 2; 3; 4; 5; 6; 7; 8; 9; 10; 11; 12; 13; 14; 15])
    (N.to_nat (number d 0 4)) (word64 d 196 0) (word64 d 196 1) (number d 212 1 =? 1).

(** ** Other conditions *)

(** secp256k1 signatures: Yellow Paper, appendix E. *)
Definition secp256k1n : N := 0xFFFFFFFFFFFFFFFFFFFFFFFFFFFFFFFEBAAEDCE6AF48A03BBFD25E8CD0364141.
Definition recovers (cr : crypto) (d : bytes) (key : bytes) : Prop :=
  let v := number d 32 32 in let r := number d 64 32 in let s := number d 96 32 in
  (v = 27 \/ v = 28) /\ 0 < r < secp256k1n /\ 0 < s < secp256k1n /\
  secp256k1_recover cr r s (v - 27) (takeN 32 (d ++ zeros 32)) = Some key.

(** P-256 signatures, EIP-7951 *)
Definition p256_n : N := 0xffffffff00000000ffffffffffffffffbce6faada7179e84f3b9cac2fc632551.
Definition p256_P : N := 2 ^ 256 - 2 ^ 224 + 2 ^ 192 + 2 ^ 96 - 1.
Definition p256_b : N := 0x5ac635d8aa3a93e7b3ebbd55769886bc651d06b0cc53b0f63bce3c3e27d2604b.
Definition verifies (cr : crypto) (d : bytes) : Prop :=
  let r := number d 32 32 in let s := number d 64 32 in
  let x := number d 96 32 in let y := number d 128 32 in
  lenN d = 160 /\ 0 < r < p256_n /\ 0 < s < p256_n /\ x < p256_P /\ y < p256_P /\
  ((Z.of_N y ^ 2 - (Z.of_N x ^ 3 - 3 * Z.of_N x + Z.of_N p256_b)) mod Z.of_N p256_P = 0)%Z /\
  secp256r1_verify cr r s x y (takeN 32 d) = true.

(** Point evaluation, EIP-4844 *)
Definition compressed_infinity : bytes := Byte.xc0 :: repeat Byte.x00 47.
Definition valid_g1 (cr : crypto) (b : bytes) : Prop :=
  b = compressed_infinity \/ bls_key_validate cr b = true.
Definition negated (x : N) : N := Z.to_N ((- Z.of_N x) mod Z.of_N bls_R).
Definition kzg_proves (cr : crypto) (d : bytes) : Prop :=
  let z := number d 32 32 in let y := number d 64 32 in
  let commitment := takeN 48 (dropN 96 d) in let proof := dropN 144 d in
  takeN 32 d = Byte.x01 :: dropN 1 (sha256_digest cr commitment) /\
  z < bls_R /\ y < bls_R /\ valid_g1 cr commitment /\ valid_g1 cr proof /\
  exists X C Q,
    bls_signature_to_g2 cr KZG_SETUP_G2_MONOMIAL_1 = Some X /\
    bls_pubkey_to_g1 cr commitment = Some C /\ bls_pubkey_to_g1 cr proof = Some Q /\
    bls_pairing_is_one cr
      [(bls_g1_add cr C (bls_g1_mul cr (bls_g1_generator cr) (negated y)),
        bls_g2_neg cr (bls_g2_generator cr));
       (Q, bls_g2_add cr X (bls_g2_mul cr (bls_g2_generator cr) (negated z)))] = true.

(** ** Reading numbers *)

Lemma big_endian_ext d d' s s' n :
  (forall i, i < N.of_nat n -> byte_at d (s + i) = byte_at d' (s' + i)) ->
  big_endian d s n = big_endian d' s' n.
Proof.
  induction n as [|n IH]; intros H; cbn [big_endian]; [done|].
  rewrite IH by (intros i Hi; apply H; lia). by rewrite (H (N.of_nat n)) by lia.
Qed.
Lemma byte_at_take d n i : i < n -> byte_at (takeN n d) i = byte_at d i.
Proof.
  intros Hi. unfold byte_at. rewrite takeN_firstn.
  assert (H : (N.to_nat i < N.to_nat n)%nat) by lia.
  generalize dependent (N.to_nat n). generalize (N.to_nat i). clear Hi.
  induction d as [|b d IH]; intros [|k] [|m] H; try lia; cbn; try done. apply IH. lia.
Qed.
Lemma byte_at_drop d s i : byte_at (dropN s d) i = byte_at d (s + i).
Proof.
  unfold byte_at. rewrite dropN_skipn, N2Nat.inj_add.
  generalize (N.to_nat s) (N.to_nat i). clear. intros s.
  induction s as [|s IH] in d |- *; intros i; [done|]. destruct d as [|b d]; cbn; [by destruct i|].
  apply IH.
Qed.
Lemma byte_at_zeros d n i : byte_at (d ++ zeros n) i = byte_at d i.
Proof.
  unfold byte_at, zeros. destruct (decide (N.to_nat i < length d)%nat).
  - by rewrite nth_error_app1.
  - rewrite nth_error_app2 by lia. rewrite (proj2 (nth_error_None d _)) by lia.
    destruct (nth_error (repeat _ _) _) eqn:E; [|done].
    apply nth_error_In, repeat_spec in E. by subst.
Qed.
Lemma byte_at_padded d s n i : i < n -> byte_at (padded d s n) i = byte_at d (s + i).
Proof.
  intros Hi. unfold padded. by rewrite byte_at_take, byte_at_zeros, byte_at_drop.
Qed.
Lemma byte_at_app1 d d' i : i < lenN d -> byte_at (d ++ d') i = byte_at d i.
Proof. unfold byte_at, lenN. intros H. by rewrite nth_error_app1 by lia. Qed.
Lemma from_be_big_endian l : from_be_bytes l = big_endian l 0 (length l).
Proof.
  induction l as [|b l IH] using rev_ind; [done|].
  rewrite from_be_snoc, app_length, Nat.add_1_r. cbn [big_endian]. rewrite IH.
  rewrite (big_endian_ext (l ++ [b]) l 0 0)
    by (intros i Hi; rewrite !N.add_0_l; apply byte_at_app1; unfold lenN; lia).
  rewrite N.add_0_l. unfold byte_at. rewrite nth_error_app2, Nat2N.id, Nat.sub_diag by lia.
  cbn. lia.
Qed.
Lemma number_ext d d' s s' n :
  (forall i, i < n -> byte_at d (s + i) = byte_at d' (s' + i)) -> number d s n = number d' s' n.
Proof. intros H. apply big_endian_ext. intros i Hi. apply H. lia. Qed.
Lemma number_all l n : lenN l = n -> from_be_bytes l = number l 0 n.
Proof. intros <-. rewrite from_be_big_endian. unfold number, lenN. by rewrite Nat2N.id. Qed.
Lemma number_read d s n : from_be_bytes (buffer_read d s n) = number d s n.
Proof.
  rewrite (number_all _ n) by apply buffer_read_len. apply number_ext.
  intros i Hi. rewrite N.add_0_l, read_padded. by apply byte_at_padded.
Qed.
Lemma number_word d s : read_word d s = number d s 32.
Proof. apply number_read. Qed.
Lemma number_within d s n s' n' : s' + n' <= n -> number (buffer_read d s n) s' n' = number d (s + s') n'.
Proof.
  intros H. apply number_ext. intros i Hi. rewrite read_padded, byte_at_padded by lia.
  f_equal. lia.
Qed.
Lemma number_take d n s' n' : s' + n' <= n -> number (takeN n d) s' n' = number d s' n'.
Proof. intros H. apply number_ext. intros i Hi. apply byte_at_take. lia. Qed.
Lemma number_drop d s s' n' : number (dropN s d) s' n' = number d (s + s') n'.
Proof. apply number_ext. intros i Hi. rewrite byte_at_drop. f_equal. lia. Qed.
Lemma number_lt d s n : number d s n < 256 ^ n.
Proof.
  rewrite <- number_read. eapply N.lt_le_trans; [apply from_be_lt|]. by rewrite buffer_read_len.
Qed.
Lemma number_slice d s n : s + n <= lenN d -> from_be_bytes (sliceN s (s + n) d) = number d s n.
Proof.
  intros H. rewrite slice_window. rewrite (number_all _ n).
  - rewrite number_take by lia. rewrite number_drop. f_equal. lia.
  - rewrite lenN_takeN, lenN_dropN. lia.
Qed.
Lemma take_padded d n : takeN n (d ++ zeros n) = buffer_read d 0 n.
Proof. rewrite read_padded. unfold padded. by rewrite dropN_skipn. Qed.
Lemma read_whole d n : lenN d = n -> buffer_read d 0 n = d.
Proof.
  intros H. rewrite <- take_padded, takeN_firstn. unfold lenN in H.
  rewrite firstn_app, firstn_all2 by lia.
  replace (N.to_nat n - length d)%nat with 0%nat by lia. by rewrite firstn_O, app_nil_r.
Qed.

Theorem C58_encoding n x : lenN (encode n x) = N.of_nat n /\
  number (encode n x) 0 (N.of_nat n) = x mod 256 ^ N.of_nat n.
Proof.
  split; [apply to_be_fixed_len|].
  rewrite <- number_all by apply to_be_fixed_len. apply from_to_be_fixed.
Qed.

(** ** Simple contracts *)

Lemma answers_intro cr a d price r op body :
  pre_compiled_contracts cr Osaka a = Some op ->
  (forall e w, m_data (e_message e) = d -> op e w = bind (charge_gas price) (fun _ => body) e w) ->
  (forall e w, body e w = match r with
                          | Output out => Ret tt (set_output out e) w
                          | Silent => Ret tt e w
                          | Fails x => Exc (EHalt x) e w
                          end) ->
  answers cr a d price r.
Proof.
  intros Ho Hop Hb. exists op. split; [done|]. intros e w Hd. rewrite Hop by done.
  unfold bind, charge_gas. destruct (_ <? _); [done|]. apply Hb.
Qed.
Lemma rejects_intro cr a d x op :
  pre_compiled_contracts cr Osaka a = Some op ->
  (forall e w, m_data (e_message e) = d -> op e w = Exc (EHalt x) e w) -> rejects cr a d x.
Proof. intros Ho H. by exists op. Qed.
Lemma data_bind {A} (f : bytes -> M A) e w : bind get_data f e w = f (m_data (e_message e)) e w.
Proof. done. Qed.
Ltac contract f :=
  eapply answers_intro;
    [reflexivity | intros e w Hd; try (progress change (at_least Osaka Osaka) with true; cbv iota);
     unfold f; rewrite data_bind, Hd | ].
Ltac rejected f :=
  eapply rejects_intro; [reflexivity | intros e w Hd;
    try (progress change (at_least Osaka Osaka) with true; cbv iota); unfold f; rewrite data_bind, Hd].

Theorem C58_sha256 cr d : answers cr 2 d (60 + 12 * words (lenN d)) (Output (sha256_digest cr d)).
Proof. contract pre_sha256; [by rewrite words_ceil | done]. Qed.

Theorem C58_ripemd160 cr d : (forall b, lenN (ripemd160_digest cr b) = 20) ->
  answers cr 3 d (600 + 120 * words (lenN d)) (Output (zeros 12 ++ ripemd160_digest cr d)).
Proof.
  intros H. contract pre_ripemd160; [by rewrite words_ceil |].
  intros e w. unfold left_pad_zero_bytes. by rewrite H.
Qed.

Theorem C58_identity cr d : answers cr 4 d (15 + 3 * words (lenN d)) (Output d).
Proof. contract pre_identity; [by rewrite words_ceil | done]. Qed.

(** ** Signatures *)

Theorem C58_ecrecover cr d : (forall b, lenN (keccak256 cr b) = 32) ->
  (forall key, recovers cr d key ->
     answers cr 1 d 3000 (Output (zeros 12 ++ dropN 12 (keccak256 cr key)))) /\
  ((forall key, ~ recovers cr d key) -> answers cr 1 d 3000 Silent).
Proof.
  intros Hk. unfold recovers. rewrite take_padded, <- !number_word.
  change secp256k1n with SECP256K1N. split.
  - intros key (Hv & Hr & Hs & Hkey). contract pre_ecrecover; [done|].
    intros e w.
    replace (negb (read_word d 32 =? 27) && negb (read_word d 32 =? 28)) with false by lia.
    replace ((read_word d 64 <=? 0) || (SECP256K1N <=? read_word d 64)) with false by lia.
    replace ((read_word d 96 <=? 0) || (SECP256K1N <=? read_word d 96)) with false by lia.
    rewrite Hkey. unfold upd. do 2 f_equal.
    assert (E : sliceN 12 32 (keccak256 cr key) = dropN 12 (keccak256 cr key)).
    { unfold sliceN. rewrite takeN_firstn. apply firstn_all2.
      pose proof (lenN_dropN 12 (keccak256 cr key)) as HL. rewrite Hk in HL.
      unfold lenN in HL. lia. }
    rewrite E. unfold left_pad_zero_bytes. by rewrite lenN_dropN, Hk.
  - intros Hno. contract pre_ecrecover; [done|].
    intros e w. destruct (negb _ && negb _) eqn:E1; [done|].
    destruct ((read_word d 64 <=? 0) || _) eqn:E2; [done|].
    destruct ((read_word d 96 <=? 0) || _) eqn:E3; [done|].
    destruct (secp256k1_recover _ _ _ _ _) as [key|] eqn:E4; [|done].
    exfalso. apply (Hno key). split_and!; lia || done.
Qed.

Lemma p256_equation x y : x < p256_P -> y < p256_P ->
  is_on_curve_secp256r1 x y = true <->
  ((Z.of_N y ^ 2 - (Z.of_N x ^ 3 - 3 * Z.of_N x + Z.of_N p256_b)) mod Z.of_N p256_P = 0)%Z.
Proof.
  intros Hx Hy. unfold is_on_curve_secp256r1.
  assert (HP : Z.of_N p256_P <> 0%Z) by done.
  change SECP256R1P with p256_P. change SECP256R1B with p256_b.
  change SECP256R1A with (p256_P - 3).
  assert (H3 : 3 <= p256_P) by done.
  generalize dependent p256_b. generalize dependent p256_P. intros P Hx Hy HP H3 B.
  rewrite N.eqb_eq, <- N2Z.inj_iff.
  rewrite !N2Z.inj_mod, !N2Z.inj_add, !N2Z.inj_mod, !N2Z.inj_mul, N2Z.inj_sub by lia.
  generalize dependent (Z.of_N P). generalize (Z.of_N x) (Z.of_N y) (Z.of_N B).
  clear. intros x y B P HP.
  change (Z.of_N 3) with 3%Z.
  rewrite <- Z.add_mod_idemp_l, <- Z.add_mod by done.
  rewrite Z.add_mod_idemp_l by done.
  replace (x * x * x + (P - 3) * x + B)%Z with (x ^ 3 - 3 * x + B + x * P)%Z by ring.
  rewrite Z.mod_add by done.
  replace (y * y)%Z with (y ^ 2)%Z by ring.
  generalize (y ^ 2)%Z (x ^ 3 - 3 * x + B)%Z. clear - HP. intros u v. split; intros H.
  - rewrite Zminus_mod, H, Z.sub_diag. done.
  - apply Z.mod_divide in H as [k Hk]; [|done].
    replace u with (v + k * P)%Z by lia. by rewrite Z.mod_add.
Qed.

Theorem C58_p256verify cr d :
  (verifies cr d -> answers cr 0x100 d 6900 (Output (encode 32 1))) /\
  (~ verifies cr d -> answers cr 0x100 d 6900 Silent).
Proof.
  assert (Hb : verifies cr d <->
    negb (lenN d =? 160) = false /\
    (read_word d 32 <=? 0) || (SECP256R1N <=? read_word d 32) = false /\
    (read_word d 64 <=? 0) || (SECP256R1N <=? read_word d 64) = false /\
    (SECP256R1P <=? read_word d 96) = false /\ (SECP256R1P <=? read_word d 128) = false /\
    negb (is_on_curve_secp256r1 (read_word d 96) (read_word d 128)) = false /\
    secp256r1_verify cr (read_word d 32) (read_word d 64) (read_word d 96) (read_word d 128)
      (buffer_read d 0 32) = true).
  { unfold verifies. rewrite <- !number_word.
    change p256_n with SECP256R1N. 
    assert (EP : p256_P = SECP256R1P) by done. 
    split.
    - intros (H1 & H2 & H3 & H4 & H5 & H6 & H7).
      apply (proj2 (p256_equation _ _ H4 H5)) in H6. rewrite H6.
      rewrite <- EP.
      assert (E : buffer_read d 0 32 = takeN 32 d).
      { rewrite <- take_padded, !takeN_firstn. unfold lenN in H1.
        rewrite firstn_app. replace (N.to_nat 32 - length d)%nat with 0%nat by lia.
        by rewrite firstn_O, app_nil_r. }
      rewrite E, H7. split_and!; lia.
    - intros (H1 & H2 & H3 & H4 & H5 & H6 & H7). rewrite <- EP in H4, H5.
      assert (E : buffer_read d 0 32 = takeN 32 d).
      { rewrite <- take_padded, !takeN_firstn. unfold lenN in H1.
        rewrite firstn_app. replace (N.to_nat 32 - length d)%nat with 0%nat by lia.
        by rewrite firstn_O, app_nil_r. }
      rewrite E in H7.
      assert (HA : read_word d 96 < p256_P) by lia. assert (HB : read_word d 128 < p256_P) by lia.
      split_and!; try lia; try done.
      apply p256_equation; [done|done|]. destruct (is_on_curve_secp256r1 _ _); done. }
  split; intros H.
  - apply Hb in H as (H1 & H2 & H3 & H4 & H5 & H6 & H7).
    contract pre_p256verify; [done|]. intros e w. rewrite H1, H2, H3, H4, H5, H6, H7.
    destruct (_ && _) eqn:E; [|done].
    apply andb_true_iff in E as [E1 E2]. apply N.eqb_eq in E1, E2. rewrite E1, E2 in H6.
    discriminate H6.
  - contract pre_p256verify; [done|]. intros e w.
    repeat match goal with |- (if ?c then _ else _) e w = _ => destruct c eqn:?; [done|] end.
    destruct (secp256r1_verify _ _ _ _ _ _) eqn:?; [|done]. exfalso. apply H, Hb. done.
Qed.

(** ** Modular exponentiation *)

Theorem C58_modexp cr d :
  let bl := number d 0 32 in let el := number d 32 32 in let ml := number d 64 32 in
  let b := number d 96 bl in let x := number d (96 + bl) el in
  let m := number d (96 + bl + el) ml in
  let price := modexp_price bl el ml (number d (96 + bl) (N.min el 32)) in
  (1024 < bl \/ 1024 < el \/ 1024 < ml -> rejects cr 5 d ExceptionalHaltMsg) /\
  (bl <= 1024 -> el <= 1024 -> ml <= 1024 ->
     answers cr 5 d price (Output (encode (N.to_nat ml) (if m =? 0 then 0 else b ^ x mod m)))).
Proof.
  intros bl el ml b x m price. split.
  - intros H. rejected pre_modexp. rewrite !number_word. fold bl el ml.
    destruct (1024 <? bl) eqn:E1; [done|]. destruct (1024 <? el) eqn:E2; [done|].
    replace (1024 <? ml) with true by lia. done.
  - intros H1 H2 H3. contract pre_modexp.
    + rewrite !number_word. fold bl el ml.
      replace (1024 <? bl) with false by lia. replace (1024 <? el) with false by lia.
      replace (1024 <? ml) with false by lia. rewrite number_read.
      assert (EP : modexp_gas_cost bl ml el (number d (96 + bl) (N.min 32 el)) = price).
      { unfold price, modexp_gas_cost, modexp_price, modexp_complexity, modexp_iterations.
        rewrite (N.min_comm 32 el). 
        generalize (number d (96 + bl) (N.min el 32)).
        generalize bl el ml. clear. intros bl el ml h.
        assert (EL : (if 0 <? bit_length h then bit_length h - 1 else bit_length h) = N.log2 h).
        { unfold bit_length. destruct (decide (h = 0)) as [->|Hh]; [done|].
          rewrite N.size_log2 by done. destruct (0 <? _) eqn:?; lia. }
        rewrite EL.
        assert (EI : (if (el <=? 32) && (h =? 0) then 0
          else if el <=? 32 then N.log2 h else 16 * (el - 32) + N.log2 h) =
          (if el <=? 32 then 0 else 16 * (el - 32)) + N.log2 h).
        { destruct (el <=? 32) eqn:E; cbn [andb]; [|reflexivity].
          destruct (h =? 0) eqn:E0; [|by rewrite N.add_0_l]. apply N.eqb_eq in E0. by rewrite E0. }
        rewrite EI. do 2 f_equal.
        destruct (32 <? N.max bl ml) eqn:E5, (N.max bl ml <=? 32) eqn:E6; reflexivity || lia. }
      rewrite EP. reflexivity.
    + intros e w. rewrite !number_read. fold b x m.
      destruct ((bl =? 0) && (ml =? 0)) eqn:E0.
      { replace ml with 0 by lia. done. }
      destruct (m =? 0) eqn:E1.
      { unfold upd. do 2 f_equal. f_equal. symmetry. unfold zeros.
        generalize (N.to_nat ml). clear. intros n. induction n as [|n IH]; [done|].
        cbn [to_be_fixed]. change (0 / 256) with 0. rewrite IH.
        change [byte_of_N (0 mod 256)] with (repeat Byte.x00 1). rewrite <- repeat_app.
        f_equal. lia. }
      rewrite pow_mod_spec by (apply N.eqb_neq; exact E1). reflexivity.
Qed.

(** ** Points *)

Lemma pair_eqb_eq (x y : N * N) : pair_eqb x y = true <-> x = y.
Proof.
  destruct x, y. unfold pair_eqb. cbn. rewrite andb_true_iff, !N.eqb_eq.
  split; [intros [-> ->]; done | intros [= -> ->]; done].
Qed.
Lemma is_inf1_eq q : is_inf1 q = true <-> q = (0, 0).
Proof. apply pair_eqb_eq. Qed.
Lemma is_inf2_eq q : is_inf2 q = true <-> q = infinity2.
Proof.
  unfold is_inf2. rewrite andb_true_iff, !pair_eqb_eq. destruct q as [x y]. cbn.
  split; [intros [-> ->]; done | intros [= -> ->]; done].
Qed.
Lemma on_curve1_eq P b q : q.1 < P -> q.2 < P ->
  on_curve1 P b q = true <-> on_curve P b q.
Proof.
  intros H1 H2. unfold on_curve1, on_curve. rewrite orb_true_iff, is_inf1_eq, N.eqb_eq.
  rewrite N.pow_2_r. change 3 with (N.succ 2). rewrite N.pow_succ_r', N.pow_2_r, N.mul_assoc.
  tauto.
Qed.

Section Twist.
  Context (P : N) (HP : P <> 0).
  Local Lemma HPZ : Z.of_N P <> 0%Z.
  Proof using HP. lia. Qed.
  Lemma fq2_mul_re x y : Z.of_N (fq2_mul P x y).1
    = ((Z.of_N x.1 * Z.of_N y.1 - Z.of_N x.2 * Z.of_N y.2) mod Z.of_N P)%Z.
  Proof using HP.
    pose proof HPZ as HZ. unfold fq2_mul. cbn [fst].
    assert (x.2 mod P < P) by (by apply N.mod_lt).
    rewrite N2Z.inj_mod, N2Z.inj_add, !N2Z.inj_mul, N2Z.inj_sub, N2Z.inj_mod by lia.
    generalize (Z.of_N x.1) (Z.of_N y.1) (Z.of_N x.2) (Z.of_N y.2).
    generalize dependent (Z.of_N P). clear. intros P HZ a c b d.
    rewrite (Z.mod_eq b) by done.
    replace (a * c + (P - (b - P * (b / P))) * d)%Z
      with (a * c - b * d + (d + (b / P) * d) * P)%Z by ring.
    by rewrite Z.mod_add.
  Qed.
  Lemma fq2_mul_im x y : Z.of_N (fq2_mul P x y).2
    = ((Z.of_N x.1 * Z.of_N y.2 + Z.of_N x.2 * Z.of_N y.1) mod Z.of_N P)%Z.
  Proof using HP.
    unfold fq2_mul. cbn [snd]. by rewrite N2Z.inj_mod, N2Z.inj_add, !N2Z.inj_mul.
  Qed.
  Lemma fq2_add_re x y : Z.of_N (fq2_add P x y).1 = ((Z.of_N x.1 + Z.of_N y.1) mod Z.of_N P)%Z.
  Proof using HP. unfold fq2_add. cbn [fst]. by rewrite N2Z.inj_mod, N2Z.inj_add. Qed.
  Lemma fq2_add_im x y : Z.of_N (fq2_add P x y).2 = ((Z.of_N x.2 + Z.of_N y.2) mod Z.of_N P)%Z.
  Proof using HP. unfold fq2_add. cbn [snd]. by rewrite N2Z.inj_mod, N2Z.inj_add. Qed.

  Lemma mod_move (u v w : Z) : (u mod Z.of_N P = (v + w) mod Z.of_N P <->
    (u - v) mod Z.of_N P = w mod Z.of_N P)%Z.
  Proof using HP.
    pose proof HPZ as HZ. generalize dependent (Z.of_N P). clear. intros P HZ. split; intros H.
    - rewrite Zminus_mod, H, <- Zminus_mod. f_equal. ring.
    - rewrite <- Z.add_mod_idemp_r, <- H, Z.add_mod_idemp_r by done. f_equal. ring.
  Qed.

  Lemma on_curve2_eq B q :
    on_curve2 P B q = true <-> q = infinity2 \/
    (twist_re q mod Z.of_N P = Z.of_N B.1 mod Z.of_N P /\
     twist_im q mod Z.of_N P = Z.of_N B.2 mod Z.of_N P)%Z.
  Proof using HP.
    pose proof HPZ as HZ.
    unfold on_curve2. rewrite orb_true_iff, is_inf2_eq, pair_eqb_eq.
    apply or_iff_compat_l. destruct q as [[a b] [c d]]. cbn [fst snd].
    set (L := fq2_mul P (c, d) (c, d)).
    set (R := fq2_add P _ _).
    assert (HL : L = R <-> Z.of_N L.1 = Z.of_N R.1 /\ Z.of_N L.2 = Z.of_N R.2).
    { destruct L, R. cbn. rewrite !N2Z.inj_iff.
      split; [intros [= -> ->]; done | intros [-> ->]; done]. }
    rewrite HL. clear HL. subst L R.
    rewrite fq2_add_re, fq2_add_im. repeat (rewrite fq2_mul_re || rewrite fq2_mul_im).
    cbn [fst snd twist_re twist_im].
    generalize (Z.of_N a) (Z.of_N b) (Z.of_N c) (Z.of_N d) (Z.of_N B.1) (Z.of_N B.2).
    clear a b c d B. intros a b c d B0 B1.
    rewrite !Z.add_mod_idemp_l by done.
    assert (E1 : ((((a * a - b * b) mod Z.of_N P) * a - ((a * b + b * a) mod Z.of_N P) * b + B0)
              mod Z.of_N P = ((a ^ 3 - 3 * a * b ^ 2) + B0) mod Z.of_N P)%Z).
    { rewrite !Z.mod_eq with (b := Z.of_N P) (a := (a * a - b * b)%Z) by done.
      rewrite !Z.mod_eq with (b := Z.of_N P) (a := (a * b + b * a)%Z) by done.
      match goal with |- (?u mod _ = _)%Z =>
        replace u with ((a ^ 3 - 3 * a * b ^ 2) + B0 +
          (- ((a * a - b * b) / Z.of_N P) * a + (a * b + b * a) / Z.of_N P * b) * Z.of_N P)%Z by ring end.
      by rewrite Z.mod_add. }
    assert (E2 : ((((a * a - b * b) mod Z.of_N P) * b + ((a * b + b * a) mod Z.of_N P) * a + B1)
              mod Z.of_N P = ((3 * a ^ 2 * b - b ^ 3) + B1) mod Z.of_N P)%Z).
    { rewrite !Z.mod_eq with (b := Z.of_N P) (a := (a * a - b * b)%Z) by done.
      rewrite !Z.mod_eq with (b := Z.of_N P) (a := (a * b + b * a)%Z) by done.
      match goal with |- (?u mod _ = _)%Z =>
        replace u with ((3 * a ^ 2 * b - b ^ 3) + B1 +
          (- ((a * a - b * b) / Z.of_N P) * b - (a * b + b * a) / Z.of_N P * a) * Z.of_N P)%Z by ring end.
      by rewrite Z.mod_add. }
    rewrite E1, E2, !mod_move.
    replace (c * c - d * d - (a ^ 3 - 3 * a * b ^ 2))%Z
      with (c ^ 2 - d ^ 2 - (a ^ 3 - 3 * a * b ^ 2))%Z by ring.
    replace (c * d + d * c - (3 * a ^ 2 * b - b ^ 3))%Z
      with (2 * c * d - (3 * a ^ 2 * b - b ^ 3))%Z by ring.
    done.
  Qed.
End Twist.

Lemma bn_twist_equation u v :
  (u mod Z.of_N bn_P = Z.of_N bn128_b2.1 mod Z.of_N bn_P /\
   v mod Z.of_N bn_P = Z.of_N bn128_b2.2 mod Z.of_N bn_P <->
   (9 * u - v) mod Z.of_N bn_P = 3 /\ (9 * v + u) mod Z.of_N bn_P = 0)%Z.
Proof.
  assert (HP : Z.of_N bn_P <> 0%Z) by done. split.
  - intros [Hu Hv]. split.
    + rewrite Zminus_mod, <- Z.mul_mod_idemp_r, Hu, Hv by done. done.
    + rewrite Z.add_mod, <- Z.mul_mod_idemp_r, Hu, Hv by done. done.
  - intros [H1 H2].
    (* 82 u = 9 (9u - v) + (9v + u), 82 v = 9 (9v + u) - (9u - v) *)
    set (i82 := 7207104360239761353666499452706663748717078063988307791373219794578306190631%Z).
    assert (Hi : ((82 * i82) mod Z.of_N bn_P = 1)%Z) by done.
    assert (Hdiv : forall z, (z mod Z.of_N bn_P = (i82 * (82 * z)) mod Z.of_N bn_P)%Z).
    { intros z. rewrite Z.mul_assoc, (Z.mul_comm i82), <- Z.mul_mod_idemp_l, Hi by done.
      f_equal. ring. }
    split; rewrite Hdiv.
    + replace (82 * u)%Z with (9 * (9 * u - v) + (9 * v + u))%Z by ring.
      rewrite <- Z.mul_mod_idemp_r, Z.add_mod, <- (Z.mul_mod_idemp_r 9), H1, H2 by done. done.
    + replace (82 * v)%Z with (9 * (9 * v + u) - (9 * u - v))%Z by ring.
      rewrite <- Z.mul_mod_idemp_r, Zminus_mod, <- (Z.mul_mod_idemp_r 9), H1, H2 by done. done.
Qed.

(** ** Decoding points *)

Lemma bn_P_eq : bn128_field_modulus = bn_P. Proof. done. Qed.
Lemma bls_P_eq : bls_field_modulus = bls_P. Proof. done. Qed.
Lemma bn_R_eq : bn128_curve_order = bn_R. Proof. done. Qed.
Lemma bls_R_eq : BLS_MODULUS = bls_R. Proof. done. Qed.
Lemma bls_b_eq : bls_b = 4. Proof. done. Qed.

Definition same_numbers (b d : bytes) (s n : N) : Prop :=
  lenN b = n /\ forall s' n', s' + n' <= n -> number b s' n' = number d (s + s') n'.
Lemma same_read d s n : same_numbers (buffer_read d s n) d s n.
Proof. split; [apply buffer_read_len|]. intros. by apply number_within. Qed.
Lemma same_slice d s n : s + n <= lenN d -> same_numbers (sliceN s (s + n) d) d s n.
Proof.
  intros H. rewrite slice_window. split; [rewrite lenN_takeN, lenN_dropN; lia|].
  intros s' n' Hn. by rewrite number_take, number_drop.
Qed.
Lemma same_take b d s n n' : n' <= n -> same_numbers b d s n -> same_numbers (takeN n' b) d s n'.
Proof.
  intros Hn [Hl Hs]. split; [rewrite lenN_takeN; lia|].
  intros s' m Hm. rewrite number_take by lia. apply Hs. lia.
Qed.
Lemma same_drop b d s n k : k <= n -> same_numbers b d s n ->
  same_numbers (dropN k b) d (s + k) (n - k).
Proof.
  intros Hn [Hl Hs]. split; [rewrite lenN_dropN; lia|].
  intros s' m Hm. rewrite number_drop, Hs by lia. f_equal. lia.
Qed.
Lemma same_value b d s n : same_numbers b d s n -> from_be_bytes b = number d s n.
Proof. intros [Hl Hs]. rewrite (number_all _ n Hl), Hs by lia. f_equal. lia. Qed.

Lemma g1_decode P x y p :
  (if P <=? x then None else if P <=? y then None
   else if (x =? 0) && (y =? 0) then Some (x, y)
   else if (y * y) mod P =? (x * x * x + 3) mod P then Some (x, y) else None) = Some p <->
  p = (x, y) /\ on_curve P 3 p.
Proof.
  assert (HB : (if (x =? 0) && (y =? 0) then Some (x, y)
    else if (y * y) mod P =? (x * x * x + 3) mod P then Some (x, y) else None)
    = if on_curve1 P 3 (x, y) then Some (x, y) else None).
  { unfold on_curve1, is_inf1, pair_eqb. cbn [fst snd]. by destruct ((x =? 0) && (y =? 0)). }
  rewrite HB. clear HB. split.
  - destruct (P <=? x) eqn:E1; [done|]. destruct (P <=? y) eqn:E2; [done|].
    destruct (on_curve1 _ _ _) eqn:E; [|done]. intros [= <-]. split; [done|].
    apply on_curve1_eq in E; cbn [fst snd]; [done|lia|lia].
  - intros [-> H]. pose proof H as (H1 & H2 & _). cbn [fst snd] in H1, H2.
    replace (P <=? x) with false by lia. replace (P <=? y) with false by lia.
    by rewrite (proj2 (on_curve1_eq P 3 (x, y) H1 H2) H).
Qed.
Lemma g2_decode P B x0 x1 y0 y1 q :
  (if (P <=? x0) || (P <=? x1) then None else if (P <=? y0) || (P <=? y1) then None
   else if on_curve2 P B ((x1, x0), (y1, y0)) then Some ((x1, x0), (y1, y0)) else None) = Some q <->
  q = ((x1, x0), (y1, y0)) /\ reduced2 P q /\ on_curve2 P B q = true.
Proof.
  unfold reduced2. split.
  - destruct ((P <=? x0) || _) eqn:E1; [done|]. destruct ((P <=? y0) || _) eqn:E2; [done|].
    destruct (on_curve2 _ _ _) eqn:E; [|done]. intros [= <-]. cbn [fst snd]. split_and!; done || lia.
  - intros (-> & H & E). cbn [fst snd] in H.
    replace ((P <=? x0) || (P <=? x1)) with false by lia.
    replace ((P <=? y0) || (P <=? y1)) with false by lia.
    by rewrite E.
Qed.
Lemma read_word_within d s n s' : s' + 32 <= n ->
  read_word (buffer_read d s n) s' = number d (s + s') 32.
Proof. intros H. rewrite number_word. by apply number_within. Qed.

Lemma bn_g1_iff d s p : bn128_bytes_to_g1 (buffer_read d s 64) = Some p <-> bn_point d s p.
Proof.
  unfold bn_point. rewrite <- bn_P_eq. rewrite <- g1_decode.
  replace (number d s 32) with (read_word (buffer_read d s 64) 0)
    by (rewrite read_word_within by lia; f_equal; lia).
  rewrite <- (read_word_within d s 64 32) by lia. reflexivity.
Qed.
Lemma bn_g2_iff d s q : bn128_bytes_to_g2 (buffer_read d s 128) = Some q <-> bn_twist_point d s q.
Proof.
  unfold bn_twist_point. rewrite <- bn_twist_equation, <- on_curve2_eq by done.
  rewrite <- bn_P_eq. rewrite <- g2_decode.
  rewrite <- (read_word_within d s 128 32), <- (read_word_within d s 128 64),
    <- (read_word_within d s 128 96) by lia.
  replace (number d s 32) with (read_word (buffer_read d s 128) 0)
    by (rewrite read_word_within by lia; f_equal; lia).
  reflexivity.
Qed.

Lemma fq_decode P c x : (if P <=? c then None else Some c) = Some x <-> x = c /\ x < P.
Proof.
  destruct (P <=? c) eqn:E; split; try done.
  - intros [-> H]. lia.
  - intros [= <-]. split; [done|lia].
  - by intros [-> _].
Qed.
Lemma fq2_decode P c0 c1 x :
  (if P <=? c0 then None else if P <=? c1 then None else Some (c0, c1)) = Some x <->
  x = (c0, c1) /\ x.1 < P /\ x.2 < P.
Proof.
  destruct (P <=? c0) eqn:E0; [|destruct (P <=? c1) eqn:E1]; split; try done.
  - intros (-> & H & _). cbn [fst] in H. lia.
  - intros (-> & _ & H). cbn [snd] in H. lia.
  - intros [= <-]. cbn [fst snd]. split_and!; [done|lia|lia].
  - by intros (-> & _).
Qed.
Lemma fq_unfold b : lenN b = 64 -> bytes_to_fq b =
  if bls_P <=? from_be_bytes (takeN 64 b) then None else Some (from_be_bytes (takeN 64 b)).
Proof. intros H. unfold bytes_to_fq. rewrite H, bls_P_eq. reflexivity. Qed.
Lemma fq2_unfold b : lenN b = 128 -> bytes_to_fq2 b =
  if bls_P <=? from_be_bytes (takeN 64 b) then None
  else if bls_P <=? from_be_bytes (dropN 64 b) then None
  else Some (from_be_bytes (takeN 64 b), from_be_bytes (dropN 64 b)).
Proof. intros H. unfold bytes_to_fq2. rewrite H, bls_P_eq. reflexivity. Qed.
Lemma same_half b d s n : same_numbers b d s (n + n) ->
  same_numbers (takeN n b) d s n /\ same_numbers (dropN n b) d (s + n) n.
Proof.
  intros H. split.
  - apply (same_take _ _ _ (n + n)); [lia|done].
  - replace n with (n + n - n) at 3 by lia. apply same_drop; [lia|done].
Qed.
Lemma fq_iff b d s x : same_numbers b d s 64 ->
  bytes_to_fq b = Some x <-> x = number d s 64 /\ x < bls_P.
Proof.
  intros Hs. rewrite fq_unfold by apply Hs. rewrite fq_decode.
  by rewrite (same_value _ _ _ _ (same_take _ _ _ _ 64 (N.le_refl _) Hs)).
Qed.
Lemma fq2_iff b d s x : same_numbers b d s 128 ->
  bytes_to_fq2 b = Some x <->
  x = (number d s 64, number d (s + 64) 64) /\ x.1 < bls_P /\ x.2 < bls_P.
Proof.
  intros Hs. rewrite fq2_unfold by apply Hs. rewrite fq2_decode.
  destruct (same_half b d s 64 Hs) as [H1 H2].
  by rewrite (same_value _ _ _ _ H1), (same_value _ _ _ _ H2).
Qed.
Lemma g1_unfold cr b sub : lenN b = 128 -> bytes_to_g1 cr b sub =
  match bytes_to_fq (takeN 64 b), bytes_to_fq (dropN 64 b) with
  | Some x, Some y =>
      if negb (on_curve1 bls_P 4 (x, y)) then None
      else if sub && negb (is_inf1 (bls_g1_mul cr (x, y) bls_R)) then None
      else Some (x, y)
  | _, _ => None
  end.
Proof. intros H. unfold bytes_to_g1. rewrite H, bls_P_eq, bls_b_eq, bls_R_eq. reflexivity. Qed.
Lemma g2_unfold cr b sub : lenN b = 256 -> bytes_to_g2 cr b sub =
  match bytes_to_fq2 (takeN 128 b), bytes_to_fq2 (dropN 128 b) with
  | Some x, Some y =>
      if negb (on_curve2 bls_P bls_b2 (x, y)) then None
      else if sub && negb (is_inf2 (bls_g2_mul cr (x, y) bls_R)) then None
      else Some (x, y)
  | _, _ => None
  end.
Proof. intros H. unfold bytes_to_g2. rewrite H, bls_P_eq, bls_R_eq. reflexivity. Qed.
Lemma bls_g1_iff cr b d s sub p : same_numbers b d s 128 ->
  bytes_to_g1 cr b sub = Some p <->
  bls_point d s p /\ (sub = true -> bls_g1_mul cr p bls_R = (0, 0)).
Proof.
  intros Hs. rewrite g1_unfold by apply Hs. unfold bls_point.
  destruct (same_half b d s 64 Hs) as [H1 H2].
  pose proof (fun x => fq_iff _ _ _ x H1) as X. pose proof (fun x => fq_iff _ _ _ x H2) as Y.
  generalize dependent (bytes_to_fq (takeN 64 b)). generalize dependent (bytes_to_fq (dropN 64 b)).
  generalize (number d s 64) as x0, (number d (s + 64) 64) as y0.
  generalize bls_P as P, bls_R as R. clear. intros P R x0 y0 oy Y ox X. split.
  - destruct ox as [x|]; [|done]. destruct oy as [y|]; [|done].
    destruct (proj1 (X x) eq_refl) as [Ex Hx]. destruct (proj1 (Y y) eq_refl) as [Ey Hy].
    destruct (on_curve1 P 4 (x, y)) eqn:Ec; cbn [negb]; [|done].
    apply on_curve1_eq in Ec; [|done|done].
    destruct (sub && _) eqn:Es; [done|]. intros [= <-]. rewrite <- Ex, <- Ey.
    split; [done|]. intros ->. cbn [andb] in Es.
    apply is_inf1_eq. by destruct (is_inf1 _).
  - intros [[-> Hc] Hsub]. pose proof Hc as (Hx & Hy & _). cbn [fst snd] in Hx, Hy.
    rewrite (proj2 (X x0)) by done. rewrite (proj2 (Y y0)) by done.
    rewrite (proj2 (on_curve1_eq P 4 (_, _) Hx Hy) Hc). cbn [negb].
    destruct sub; [|done]. cbn [andb].
    by rewrite (proj2 (is_inf1_eq _) (Hsub eq_refl)).
Qed.
Lemma bls_on_twist q : on_curve2 bls_P bls_b2 q = true <-> q = infinity2 \/
  (twist_re q mod Z.of_N bls_P = 4 /\ twist_im q mod Z.of_N bls_P = 4)%Z.
Proof. by apply on_curve2_eq. Qed.
Lemma bls_g2_iff cr b d s sub q : same_numbers b d s 256 ->
  bytes_to_g2 cr b sub = Some q <->
  bls_twist_point d s q /\ (sub = true -> bls_g2_mul cr q bls_R = infinity2).
Proof.
  intros Hs. rewrite g2_unfold by apply Hs. unfold bls_twist_point. rewrite <- bls_on_twist.
  destruct (same_half b d s 128 Hs) as [H1 H2].
  pose proof (fun x => fq2_iff _ _ _ x H1) as X. pose proof (fun x => fq2_iff _ _ _ x H2) as Y.
  replace (s + 128 + 64) with (s + 192) in Y by lia. unfold reduced2.
  generalize dependent (bytes_to_fq2 (takeN 128 b)). generalize dependent (bytes_to_fq2 (dropN 128 b)).
  generalize (number d s 64, number d (s + 64) 64) as x0.
  generalize (number d (s + 128) 64, number d (s + 192) 64) as y0.
  generalize bls_P as P, bls_R as R, bls_b2 as B. clear. intros P R B y0 x0 oy Y ox X. split.
  - destruct ox as [x|]; [|done]. destruct oy as [y|]; [|done].
    destruct (proj1 (X x) eq_refl) as [Ex Hx]. destruct (proj1 (Y y) eq_refl) as [Ey Hy].
    destruct (on_curve2 P B (x, y)) eqn:Ec; cbn [negb]; [|done].
    destruct (sub && _) eqn:Es; [done|]. intros [= <-]. rewrite <- Ex, <- Ey. cbn [fst snd].
    split; [tauto|]. intros ->. cbn [andb] in Es.
    apply is_inf2_eq. by destruct (is_inf2 _).
  - intros [(-> & Hr & Hc) Hsub]. cbn [fst snd] in Hr.
    rewrite (proj2 (X x0)) by tauto. rewrite (proj2 (Y y0)) by tauto.
    rewrite Hc. cbn [negb].
    destruct sub; [|done]. cbn [andb].
    by rewrite (proj2 (is_inf2_eq _) (Hsub eq_refl)).
Qed.
