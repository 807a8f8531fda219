(** * PropBlake2: BLAKE2 and calls of precompiled contracts (C58).

    The BLAKE2 contract computes the function F of RFC 7693; what the caller
    of a precompiled contract gets. *)
From Verif Require Import Base State Rlp Vm Instructions Precompiles Interpreter
  StateSpec StateProofs NumericProofs ArithProofs EvmStep InstrSpec InstrProofs EvmExamples
  EvmInv PropAccounts PropFrames PrecompileSpec PropPrecompiles.
From Coq Require Import ZifyBool ZifyN ZifyNat.
Ltac Zify.zify_post_hook ::= idtac.

(** ** Words *)

Notation w64 x := (x < 2 ^ 64).
Lemma shifted_apart a b k : a < 2 ^ k -> N.lxor a (b * 2 ^ k) = a + b * 2 ^ k.
Proof.
  intros Ha. symmetry. apply N.add_nocarry_lxor. apply N.bits_inj_0. intros i.
  rewrite N.land_spec. destruct (decide (i < k)) as [Hi|Hi].
  - rewrite N.mul_pow2_bits_low by done. apply andb_false_r.
  - rewrite <- (N.mod_small a (2 ^ k)) by done. by rewrite N.mod_pow2_bits_high by lia.
Qed.
Lemma rot_eq x r : r <= 64 -> w64 x -> blake2_rot x r = ror64 x r.
Proof.
  intros Hr Hx. unfold blake2_rot, ror64. rewrite N.shiftr_div_pow2, N.shiftl_mul_pow2.
  assert (E : 2 ^ 64 = 2 ^ r * 2 ^ (64 - r)) by (rewrite <- N.pow_add_r; f_equal; lia).
  rewrite E at 1. rewrite N.mul_mod_distr_r by (apply N.pow_nonzero; done).
  apply shifted_apart. apply N.div_lt_upper_bound; [by apply N.pow_nonzero|]. by rewrite <- E.
Qed.
Lemma ror_small x r : r <= 64 -> w64 x -> w64 (ror64 x r).
Proof.
  intros Hr Hx. unfold ror64.
  assert (E : 2 ^ 64 = 2 ^ r * 2 ^ (64 - r)) by (rewrite <- N.pow_add_r; f_equal; lia).
  assert (H1 : x / 2 ^ r < 2 ^ (64 - r))
    by (apply N.div_lt_upper_bound; [by apply N.pow_nonzero|]; by rewrite <- E).
  assert (H2 : x mod 2 ^ r < 2 ^ r) by (apply N.mod_lt; by apply N.pow_nonzero).
  rewrite E. generalize dependent (2 ^ r). generalize dependent (2 ^ (64 - r)). clear.
  intros u b _ H1 H2. generalize dependent (x / b). generalize dependent (x mod b).
  intros m Hm q Hq. nia.
Qed.
Lemma lxor_small x y : w64 x -> w64 y -> w64 (N.lxor x y).
Proof.
  intros Hx Hy.
  destruct (decide (N.lxor x y = 0)) as [->|H0]; [done|].
  apply N.log2_lt_pow2; [lia|].
  eapply N.le_lt_trans; [apply N.log2_lxor|].
  assert (HL : forall z, w64 z -> N.log2 z < 64).
  { intros z Hz. destruct (decide (z = 0)) as [->|]; [done|]. apply N.log2_lt_pow2; [lia|done]. }
  apply N.max_lub_lt; by apply HL.
Qed.
Lemma add_small x y : w64 (add64 x y).
Proof. apply N.mod_lt. done. Qed.

(** ** The mixing function *)

Definition small4 (q : quad) : Prop := let '(a, b, c, d) := q in w64 a /\ w64 b /\ w64 c /\ w64 d.
Definition small (v : block) : Prop :=
  let '(p, q, r, s) := v in small4 p /\ small4 q /\ small4 r /\ small4 s.

(** The same steps with the operations of the code. *)
Definition mix_code (x y : N) (q : quad) : quad :=
  let '(a, b, c, d) := q in
  let a := (a + b + x) mod 2 ^ 64 in
  let d := blake2_rot (N.lxor d a) 32 in
  let c := (c + d) mod 2 ^ 64 in
  let b := blake2_rot (N.lxor b c) 24 in
  let a := (a + b + y) mod 2 ^ 64 in
  let d := blake2_rot (N.lxor d a) 16 in
  let c := (c + d) mod 2 ^ 64 in
  let b := blake2_rot (N.lxor b c) 63 in
  (a, b, c, d).
Lemma mix_eq x y q : small4 q -> mix_code x y q = mix x y q /\ small4 (mix x y q).
Proof.
  destruct q as [[[a b] c] d]. intros (Ha & Hb & Hc & Hd). unfold mix_code, mix.
  assert (EA : forall u v w, (u + v + w) mod 2 ^ 64 = add64 (add64 u v) w).
  { intros u v w. unfold add64. by rewrite N.add_mod_idemp_l. }
  assert (EC : forall u v, (u + v) mod 2 ^ 64 = add64 u v) by done.
  cbv zeta. rewrite (EA a b x). set (a1 := add64 (add64 a b) x).
  assert (Ha1 : w64 a1) by apply add_small. clearbody a1.
  rewrite (rot_eq (N.lxor d a1) 32) by (done || by apply lxor_small).
  set (d1 := ror64 (N.lxor d a1) 32).
  assert (Hd1 : w64 d1) by (apply ror_small; [done|by apply lxor_small]). clearbody d1.
  rewrite (EC c d1). set (c1 := add64 c d1).
  assert (Hc1 : w64 c1) by apply add_small. clearbody c1.
  rewrite (rot_eq (N.lxor b c1) 24) by (done || by apply lxor_small).
  set (b1 := ror64 (N.lxor b c1) 24).
  assert (Hb1 : w64 b1) by (apply ror_small; [done|by apply lxor_small]). clearbody b1.
  rewrite (EA a1 b1 y). set (a2 := add64 (add64 a1 b1) y).
  assert (Ha2 : w64 a2) by apply add_small. clearbody a2.
  rewrite (rot_eq (N.lxor d1 a2) 16) by (done || by apply lxor_small).
  set (d2 := ror64 (N.lxor d1 a2) 16).
  assert (Hd2 : w64 d2) by (apply ror_small; [done|by apply lxor_small]). clearbody d2.
  rewrite (EC c1 d2). set (c2 := add64 c1 d2).
  assert (Hc2 : w64 c2) by apply add_small. clearbody c2.
  rewrite (rot_eq (N.lxor b1 c2) 63) by (done || by apply lxor_small).
  set (b2 := ror64 (N.lxor b1 c2) 63).
  assert (Hb2 : w64 b2) by (apply ror_small; [done|by apply lxor_small]). clearbody b2.
  split; [done|]. by split_and!.
Qed.

(** The vector of the code (with the unused seventeenth word). *)
Definition flat (v : block) (z : N) : list N :=
  let '((a0,b0,c0,d0), (a1,b1,c1,d1), (a2,b2,c2,d2), (a3,b3,c3,d3)) := v in
  [a0; a1; a2; a3; b0; b1; b2; b3; c0; c1; c2; c3; d0; d1; d2; d3; z].

Local Opaque N.add N.modulo blake2_rot N.lxor N.pow.
Lemma mix_columns (v : block) z m s0 s1 s2 s3 s4 s5 s6 s7 rest table :
  blake2_mix (flat v z) m (s0 :: s1 :: s2 :: s3 :: s4 :: s5 :: s6 :: s7 :: rest)
    ([(0, 4, 8, 12); (1, 5, 9, 13); (2, 6, 10, 14); (3, 7, 11, 15)] ++ table)%nat =
  let '(p, q, r, s) := v in
  blake2_mix
    (flat (mix_code (nth0 m s0) (nth0 m s1) p, mix_code (nth0 m s2) (nth0 m s3) q,
           mix_code (nth0 m s4) (nth0 m s5) r, mix_code (nth0 m s6) (nth0 m s7) s) z)
    m rest table.
Proof.
  destruct v as [[[[[[a0 b0] c0] d0] [[[a1 b1] c1] d1]] [[[a2 b2] c2] d2]] [[[a3 b3] c3] d3]].
  reflexivity.
Qed.
Lemma mix_diagonals (v : block) z m s0 s1 s2 s3 s4 s5 s6 s7 :
  blake2_mix (flat v z) m [s0; s1; s2; s3; s4; s5; s6; s7]
    ([(0, 5, 10, 15); (1, 6, 11, 12); (2, 7, 8, 13); (3, 4, 9, 14)])%nat =
  let '(p, q, r, s) := diagonals v in
  flat (columns (mix_code (nth0 m s0) (nth0 m s1) p, mix_code (nth0 m s2) (nth0 m s3) q,
                 mix_code (nth0 m s4) (nth0 m s5) r, mix_code (nth0 m s6) (nth0 m s7) s)) z.
Proof.
  destruct v as [[[[[[a0 b0] c0] d0] [[[a1 b1] c1] d1]] [[[a2 b2] c2] d2]] [[[a3 b3] c3] d3]].
  reflexivity.
Qed.
Local Transparent N.add N.modulo blake2_rot N.lxor N.pow.

(** ** Rounds *)

Lemma sigma_digits :
  Forall (fun i => length (nth i blake2_sigma []) = 16%nat /\
    Forall (fun j => nth j (nth i blake2_sigma []) 0%nat =
      N.to_nat (nth i schedule 0 / 16 ^ (15 - N.of_nat j) mod 16)) (seq 0 16)) (seq 0 10).
Proof. repeat (constructor; [split; [reflexivity|repeat constructor]|]). constructor. Qed.

Lemma list16 {A} (s : list A) : length s = 16%nat ->
  exists s0 s1 s2 s3 s4 s5 s6 s7 s8 s9 s10 s11 s12 s13 s14 s15,
    s = [s0; s1; s2; s3; s4; s5; s6; s7; s8; s9; s10; s11; s12; s13; s14; s15].
Proof.
  intros H. do 16 (destruct s as [|? s]; [done|]). destruct s; [|done]. eauto 20.
Qed.

Lemma mix4_0 pick p q r s : mix4 pick 0 (p, q, r, s) =
  (mix (pick 0) (pick 1) p, mix (pick 2) (pick 3) q, mix (pick 4) (pick 5) r,
   mix (pick 6) (pick 7) s).
Proof. reflexivity. Qed.
Lemma mix4_8 pick p q r s : mix4 pick 8 (p, q, r, s) =
  (mix (pick 8) (pick 9) p, mix (pick 10) (pick 11) q, mix (pick 12) (pick 13) r,
   mix (pick 14) (pick 15) s).
Proof. reflexivity. Qed.
Lemma round_eq n m v z : small v ->
  blake2_round (N.of_nat n) m (flat v z) = flat (one_round m n v) z /\ small (one_round m n v).
Proof.
  intros Hv. unfold blake2_round, one_round.
  assert (Ei : N.to_nat (N.of_nat n mod 10) = (n mod 10)%nat).
  { rewrite <- (Nat2N.id (n mod 10)). f_equal. symmetry. apply (Nat2N.inj_mod n 10). }
  rewrite Ei. pose proof (Nat.mod_upper_bound n 10 ltac:(done)) as Hi.
  pose proof sigma_digits as HD. rewrite Forall_forall in HD.
  destruct (HD (n mod 10)%nat) as [HL HS]; [apply elem_of_seq; lia|]. clear HD.
  assert (HC : forall j : nat, (j < 16)%nat ->
    chosen m n (N.of_nat j) = nth0 m (nth j (nth (n mod 10) blake2_sigma []) 0%nat)).
  { intros j Hj. rewrite Forall_forall in HS. rewrite HS by (apply elem_of_seq; lia). done. }
  revert HC. generalize (chosen m n) as pick. intros pick HC. clear HS.
  revert HC HL. generalize (nth (n mod 10) blake2_sigma []) as s. intros s HC HL.
  apply list16 in HL as (s0 & s1 & s2 & s3 & s4 & s5 & s6 & s7 & s8 & s9 & s10 & s11 & s12 & s13 & s14 & s15 & ->).
  assert (P0 : pick 0 = nth0 m s0) by exact (HC 0%nat ltac:(lia)). assert (P1 : pick 1 = nth0 m s1) by exact (HC 1%nat ltac:(lia)).
  assert (P2 : pick 2 = nth0 m s2) by exact (HC 2%nat ltac:(lia)). assert (P3 : pick 3 = nth0 m s3) by exact (HC 3%nat ltac:(lia)).
  assert (P4 : pick 4 = nth0 m s4) by exact (HC 4%nat ltac:(lia)). assert (P5 : pick 5 = nth0 m s5) by exact (HC 5%nat ltac:(lia)).
  assert (P6 : pick 6 = nth0 m s6) by exact (HC 6%nat ltac:(lia)). assert (P7 : pick 7 = nth0 m s7) by exact (HC 7%nat ltac:(lia)).
  assert (P8 : pick 8 = nth0 m s8) by exact (HC 8%nat ltac:(lia)). assert (P9 : pick 9 = nth0 m s9) by exact (HC 9%nat ltac:(lia)).
  assert (P10 : pick 10 = nth0 m s10) by exact (HC 10%nat ltac:(lia)). assert (P11 : pick 11 = nth0 m s11) by exact (HC 11%nat ltac:(lia)).
  assert (P12 : pick 12 = nth0 m s12) by exact (HC 12%nat ltac:(lia)). assert (P13 : pick 13 = nth0 m s13) by exact (HC 13%nat ltac:(lia)).
  assert (P14 : pick 14 = nth0 m s14) by exact (HC 14%nat ltac:(lia)). assert (P15 : pick 15 = nth0 m s15) by exact (HC 15%nat ltac:(lia)).
  clear HC.
  change blake2_MIX_TABLE with
    ([(0, 4, 8, 12); (1, 5, 9, 13); (2, 6, 10, 14); (3, 7, 11, 15)] ++
     [(0, 5, 10, 15); (1, 6, 11, 12); (2, 7, 8, 13); (3, 4, 9, 14)])%nat.
  rewrite mix_columns.
  destruct v as [[[p q] r] s]. destruct Hv as (Hp & Hq & Hr & Hs).
  rewrite (mix4_0 pick p q r s).
  rewrite <- P0, <- P1, <- P2, <- P3, <- P4, <- P5, <- P6, <- P7.
  destruct (mix_eq (pick 0) (pick 1) p Hp) as [-> Hp'].
  destruct (mix_eq (pick 2) (pick 3) q Hq) as [-> Hq'].
  destruct (mix_eq (pick 4) (pick 5) r Hr) as [-> Hr'].
  destruct (mix_eq (pick 6) (pick 7) s Hs) as [-> Hs'].
  clear P0 P1 P2 P3 P4 P5 P6 P7.
  set (v := (mix (pick 0) (pick 1) p, mix (pick 2) (pick 3) q, mix (pick 4) (pick 5) r,
             mix (pick 6) (pick 7) s) : block).
  assert (Hv : small v) by (by split_and!). clearbody v. clear - Hv P8 P9 P10 P11 P12 P13 P14 P15.
  rewrite mix_diagonals.
  assert (Hd : small (diagonals v)).
  { destruct v as [[[[[[a0 b0] c0] d0] [[[a1 b1] c1] d1]] [[[a2 b2] c2] d2]] [[[a3 b3] c3] d3]].
    destruct Hv as ((? & ? & ? & ?) & (? & ? & ? & ?) & (? & ? & ? & ?) & (? & ? & ? & ?)).
    by split_and!. }
  destruct (diagonals v) as [[[p q] r] s]. destruct Hd as (Hp & Hq & Hr & Hs).
  rewrite (mix4_8 pick p q r s).
  rewrite <- P8, <- P9, <- P10, <- P11, <- P12, <- P13, <- P14, <- P15.
  destruct (mix_eq (pick 8) (pick 9) p Hp) as [-> Hp'].
  destruct (mix_eq (pick 10) (pick 11) q Hq) as [-> Hq'].
  destruct (mix_eq (pick 12) (pick 13) r Hr) as [-> Hr'].
  destruct (mix_eq (pick 14) (pick 15) s Hs) as [-> Hs'].
  split; [done|]. clear P8 P9 P10 P11 P12 P13 P14 P15.
  revert Hp' Hq' Hr' Hs'. generalize (mix (pick 8) (pick 9) p), (mix (pick 10) (pick 11) q),
    (mix (pick 12) (pick 13) r), (mix (pick 14) (pick 15) s). clear.
  intros [[[a0 b1] c2] d3] [[[a1 b2] c3] d0] [[[a2 b3] c0] d1] [[[a3 b0] c1] d2].
  intros (? & ? & ? & ?) (? & ? & ? & ?) (? & ? & ? & ?) (? & ? & ? & ?). by split_and!.
Qed.

Lemma rounds_eq m v z n : small v ->
  N.iter (N.of_nat n) (fun '(r, v) => (r + 1, blake2_round r m v)) (0, flat v z) =
  (N.of_nat n, flat (rounds m n v) z) /\ small (rounds m n v).
Proof.
  intros Hv. induction n as [|n [IH IHs]]; [done|].
  rewrite Nat2N.inj_succ, N.iter_succ, IH.
  destruct (round_eq n m (rounds m n v) z IHs) as [E Es].
  cbn [rounds]. split; [|done]. rewrite E. f_equal. lia.
Qed.

(** ** Input and output *)

Lemma take_drop_S n s (d : bytes) : s + N.of_nat (S n) <= lenN d ->
  exists b, byte_at d s = Byte.to_N b /\
  takeN (N.of_nat (S n)) (dropN s d) = b :: takeN (N.of_nat n) (dropN (s + 1) d).
Proof.
  intros H. rewrite !takeN_firstn, !dropN_skipn, !Nat2N.id.
  replace (N.to_nat (s + 1)) with (S (N.to_nat s)) by lia. unfold byte_at.
  assert (Hs : (N.to_nat s < length d)%nat) by (unfold lenN in H; lia).
  revert Hs. generalize (N.to_nat s) as k. clear H. induction d as [|c d IH]; intros k Hk.
  - simpl in Hk. lia.
  - destruct k as [|k]; [by exists c|]. simpl in Hk. apply IH. lia.
Qed.
Lemma little_endian_eq d n : forall s, s + N.of_nat n <= lenN d ->
  from_le_bytes (takeN (N.of_nat n) (dropN s d)) = little_endian d s n.
Proof.
  unfold from_le_bytes. induction n as [|n IH]; intros s H; [by rewrite takeN_firstn|].
  destruct (take_drop_S n s d H) as (b & Hb & ->). cbn [rev little_endian].
  rewrite from_be_snoc, Hb, IH by lia. lia.
Qed.
Lemma little_endian_lt d n : forall s, little_endian d s n < 256 ^ N.of_nat n.
Proof.
  induction n as [|n IH]; intros s; [done|]. cbn [little_endian].
  assert (byte_at d s < 256).
  { unfold byte_at. destruct (nth_error _ _) as [b|]; [apply byte_to_N_lt|done]. }
  rewrite Nat2N.inj_succ, N.pow_succ_r'. specialize (IH (s + 1)).
  generalize dependent (256 ^ N.of_nat n). intros. lia.
Qed.
Lemma word64_lt d s i : w64 (word64 d s i).
Proof. apply (little_endian_lt d 8). Qed.
Lemma spit_eq d n : forall s, s + 8 * N.of_nat n <= lenN d ->
  spit_le_to_uint d s n = map (fun i => word64 d s (N.of_nat i)) (seq 0 n).
Proof.
  induction n as [|n IH]; intros s H; [done|].
  cbn [spit_le_to_uint seq map]. rewrite IH by lia. f_equal.
  - unfold sliceN. replace (s + 8 - s) with 8 by lia. unfold word64.
    rewrite (little_endian_eq d 8) by lia. f_equal. lia.
  - rewrite <- seq_shift, map_map. apply map_ext. intros i. unfold word64. f_equal. lia.
Qed.

Lemma iv_eq : blake2_IV = map iv [2; 3; 5; 7; 11; 13; 17; 19].
Proof. vm_compute. reflexivity. Qed.
Lemma iv_small p : w64 (iv p).
Proof. unfold iv. apply N.mod_lt. done. Qed.
Lemma iv_flip : N.lxor (iv 17) 0xFFFFFFFFFFFFFFFF = 2 ^ 64 - 1 - iv 17.
Proof. vm_compute. reflexivity. Qed.

Local Opaque iv N.lxor.
Lemma compress_eq h0 h1 h2 h3 h4 h5 h6 h7 m n t0 t1 f : f <= 1 ->
  w64 h0 -> w64 h1 -> w64 h2 -> w64 h3 -> w64 h4 -> w64 h5 -> w64 h6 -> w64 h7 ->
  w64 t0 -> w64 t1 ->
  blake2_compress (N.of_nat n) [h0; h1; h2; h3; h4; h5; h6; h7] m t0 t1 f =
  concat (map (fun x => rev (encode 8 x))
    (compressed ((h0, h1, h2, h3), (h4, h5, h6, h7)) m n t0 t1 (f =? 1))).
Proof.
  intros Hf H0 H1 H2 H3 H4 H5 H6 H7 Ht0 Ht1. unfold blake2_compress, compressed.
  rewrite iv_eq. cbv zeta.
  set (v0 := ((h0, h4, iv 2, N.lxor (iv 11) t0), (h1, h5, iv 3, N.lxor (iv 13) t1),
       (h2, h6, iv 5, if f =? 1 then 2 ^ 64 - 1 - iv 17 else iv 17), (h3, h7, iv 7, iv 19)) : block).
  match goal with |- (let '(_, _) := N.iter _ _ (0, ?v) in _) = _ =>
    assert (EV : v = flat v0 0) end.
  { unfold v0. destruct (decide (f = 0)) as [->|Hf0]; [|assert (f = 1) as -> by lia];
      cbn [N.eqb Pos.eqb].
    - rewrite (N.lxor_comm (iv 11) t0), (N.lxor_comm (iv 13) t1). reflexivity.
    - rewrite (N.lxor_comm (iv 11) t0), (N.lxor_comm (iv 13) t1), <- iv_flip. reflexivity. }
  rewrite EV. clear EV.
  assert (Hs : small v0).
  { unfold v0. pose proof iv_small as HI.
    cbv beta iota delta [small small4].
    split_and!; try assumption; try apply HI; try (apply lxor_small; [apply HI|assumption]).
    destruct (f =? 1); [|apply HI]. rewrite <- iv_flip. by apply lxor_small. }
  clearbody v0.
  destruct (rounds_eq m v0 0 n Hs) as [-> _].
  destruct (rounds m n v0) as [[[[[[a0 b0] c0] d0] [[[a1 b1] c1] d1]] [[[a2 b2] c2] d2]] [[[a3 b3] c3] d3]].
  rewrite <- !N.lxor_assoc. reflexivity.
Qed.
Local Transparent iv N.lxor.

Theorem C58_blake2f cr d :
  (lenN d <> 213 -> rejects cr 9 d InvalidParameter) /\
  (lenN d = 213 ->
   answers cr 9 d (number d 0 4)
     (if number d 212 1 <=? 1
      then Output (concat (map (fun x => rev (encode 8 x)) (blake2_answer d)))
      else Fails InvalidParameter)).
Proof.
  split; intros HL.
  { rejected pre_blake2f. by rewrite (proj2 (N.eqb_neq _ _) HL). }
  assert (ER : from_be_bytes (takeN 4 d) = number d 0 4).
  { rewrite <- (number_slice d 0 4) by lia. unfold sliceN. by rewrite (dropN_skipn 0). }
  assert (EF : from_be_bytes (dropN 212 d) = number d 212 1).
  { rewrite (number_all _ 1) by (rewrite lenN_dropN; lia). by rewrite number_drop. }
  contract pre_blake2f.
  { rewrite HL. cbn [negb N.eqb Pos.eqb]. rewrite ER. unfold GAS_BLAKE2_PER_ROUND.
    rewrite N.mul_1_l. reflexivity. }
  intros e w. rewrite EF.
  destruct (number d 212 1 <=? 1) eqn:Hf.
  2:{ apply N.leb_gt in Hf. rewrite (proj2 (N.eqb_neq _ 0)), (proj2 (N.eqb_neq _ 1)) by lia. done. }
  apply N.leb_le in Hf.
  assert (Hf01 : (number d 212 1 =? 0) || (number d 212 1 =? 1) = true).
  { rewrite orb_true_iff, !N.eqb_eq. lia. }
  rewrite Hf01. cbn [negb]. unfold upd. do 2 f_equal.
  rewrite !spit_eq by lia. unfold blake2_answer.
  rewrite <- (N2Nat.id (number d 0 4)) at 1.
  apply compress_eq; try apply word64_lt. done.
Qed.

(** ** Calls *)

(** The call fails: all gas is taken and nothing else has happened. *)
Definition call_fails (x : halt) (w : world) (e : evm) (w' : world) : Prop :=
  e_error e = Some (EHalt x) /\ e_gas_left e = 0 /\ e_output e = [] /\ same_reads w w'.
(** The call succeeds: the price is paid, the value has moved. *)
Definition call_gives (m : message) (price : N) (out : bytes) (w : world) (e : evm) (w' : world)
  : Prop :=
  e_error e = None /\ e_gas_left e + price = m_gas m /\ e_output e = out /\
  e_logs e = [] /\ e_refund_counter e = 0%Z /\ e_accounts_to_delete e = ∅ /\
  e_accessed_addresses e = m_accessed_addresses m /\
  e_accessed_storage_keys e = m_accessed_storage_keys m /\
  exists w1, sent m w w1 /\ same_reads w1 w'.

(** Except for modular exponentiation, a precompiled contract never changes. *)
Lemma pre_osaka cr f a p : pre_compiled_contracts cr f a <> None -> (a = 5 -> f = Osaka) ->
  pre_compiled_contracts cr Osaka a = Some p -> pre_compiled_contracts cr f a = Some p.
Proof.
  intros H H5. unfold pre_compiled_contracts in *.
  destruct a as [|q]; [done|].
  do 9 (try destruct q as [q|q|]); first [done | by destruct f | by rewrite (H5 eq_refl)].
Qed.

(** For the forks before Osaka: the contract must be there (C53 says which
    are), and modular exponentiation is left to C85. *)
Theorem C58_message cr be te m w e w' a price r :
  pre_compiled_contracts cr (b_fork be) a <> None -> (a = 5 -> b_fork be = Osaka) ->
  m_depth m <= 1024 -> owned (st w) -> m_code_address m = Some a ->
  m_disable_precompiles m = false -> answers cr a (m_data m) price r ->
  process_message cr be te m w = PRet e w' ->
  (m_gas m < price -> call_fails OutOfGasError w e w') /\
  (price <= m_gas m ->
   match r with
   | Output out => call_gives m price out w e w'
   | Silent => call_gives m price [] w e w'
   | Fails x => call_fails x w e w'
   end).
Proof.
  intros Hin H5 Hd Ho Ha Hdis (p & Hp & Hrun) H. apply (pre_osaka _ _ _ _ Hin H5) in Hp.
  destruct (C53_precompiled cr be te m w e w' a p Hd Ho Ha Hp H) as (w1 & Hs & HC).
  rewrite Hdis in HC. rewrite Hrun in HC by done. cbn [first_frame e_gas_left] in HC.
  destruct (N.ltb_spec (m_gas m) price) as [Hg|Hg].
  - split; [|lia]. intros _. exact HC.
  - split; [lia|]. intros _. destruct r as [out| |x]; cbn [concluded] in HC.
    + destruct HC as (-> & He & Hw). unfold call_gives. cbn. split_and!; try done; [lia|eauto].
    + destruct HC as (-> & He & Hw). unfold call_gives. cbn. split_and!; try done; [lia|eauto].
    + exact HC.
Qed.
Theorem C58_message_rejected cr be te m w e w' a x :
  pre_compiled_contracts cr (b_fork be) a <> None -> (a = 5 -> b_fork be = Osaka) ->
  m_depth m <= 1024 -> owned (st w) -> m_code_address m = Some a ->
  m_disable_precompiles m = false -> rejects cr a (m_data m) x ->
  process_message cr be te m w = PRet e w' -> call_fails x w e w'.
Proof.
  intros Hin H5 Hd Ho Ha Hdis (p & Hp & Hrun) H. apply (pre_osaka _ _ _ _ Hin H5) in Hp.
  destruct (C53_precompiled cr be te m w e w' a p Hd Ho Ha Hp H) as (w1 & Hs & HC).
  rewrite Hdis in HC. rewrite Hrun in HC by done. exact HC.
Qed.

(** ** Examples *)

(** 3 ^ 2 mod 5; the generator (1, 2) of the first curve plus infinity; a
    point that is not on the curve; BLAKE2 with two rounds, with a bad final
    byte and with too little gas. *)
Definition ex_modexp : bytes :=
  zeros 31 ++ bs [1] ++ zeros 31 ++ bs [1] ++ zeros 31 ++ bs [1] ++ bs [3; 2; 5].
Definition ex_blake2 (rounds final : N) : bytes :=
  bs [0; 0; 0; rounds] ++ zeros 208 ++ bs [final].
Definition ex_add : bytes := zeros 31 ++ bs [1] ++ zeros 31 ++ bs [2].
Definition ex_ask (a gas : N) (d : bytes) : option (option exn * N * N * bytes) :=
  let w := toy_world [(0xaa, Account 0 50 [])] ∅ in
  match toy_run (toy_message a gas 7 d []) w with
  | PRet e w' => Some (e_error e, e_gas_left e, balance (get_account (st w') a), takeN 2 (e_output e))
  | PExc _ _ => None
  end.
Example C58_nonvacuous :
  ex_ask 5 600 ex_modexp = Some (None, 100, 7, bs [4]) /\
  number ex_add 0 32 = 1 /\ bn_point ex_add 0 (1, 2) /\
  ex_ask 6 200 ex_add = Some (None, 50, 7, bs [0; 0]) /\
  ex_ask 6 200 (bs [1]) = Some (Some (EHalt OutOfGasError), 0, 0, []) /\
  lenN (ex_blake2 2 1) = 213 /\ number (ex_blake2 2 1) 0 4 = 2 /\
  ex_ask 9 10 (ex_blake2 2 1) = Some (None, 8, 7, bs [0x41; 0x5e]) /\
  ex_ask 9 10 (ex_blake2 2 2) = Some (Some (EHalt InvalidParameter), 0, 0, []) /\
  ex_ask 9 1 (ex_blake2 2 1) = Some (Some (EHalt OutOfGasError), 0, 0, []).
Proof.
  split; [vm_compute; done|]. split; [vm_compute; done|].
  split; [split; [done|split; [done|]; split; [done|right; done]]|].
  vm_compute. repeat split.
Qed.

(** The BLAKE2b hash of "abc" (RFC 7693, appendix A; EIP-152, test vector 5). *)
Definition ex_abc : bytes :=
  to_be_fixed 68 (0x0000000c48c9bdf267e6096a3ba7ca8485ae67bb2bf894fe72f36e3cf1361d5f3af54fa5d182e6ad7f520e511f6c3e2b8c68059b6bbd41fbabd9831f79217e1319cde05b)
  ++ bs [0x61; 0x62; 0x63] ++ zeros 125 ++ bs [3] ++ zeros 15 ++ bs [1].
Example C58_blake2_vector : lenN ex_abc = 213 /\
  from_be_bytes (concat (map (fun x => rev (encode 8 x)) (blake2_answer ex_abc))) =
  0xba80a53f981c4d0d6a2797b69f12f6e94c212f14685ac4b74b12bb6fdbffa2d17d87c5392aab792dc252d5de4533cc9518d38aa8dbf1925ab92386edd4009923.
Proof. vm_compute. repeat split. Qed.

Definition PropPrecompiles_theorems :=
  (@C58_encoding, @C58_sha256, @C58_ripemd160, @C58_identity, @C58_ecrecover, @C58_p256verify,
   @C58_modexp, @C58_bn128_add, @C58_bn128_mul, @C58_bn128_pairing, @C58_bls_g1_add,
   @C58_bls_g2_add, @C58_bls_g1_msm, @C58_bls_g2_msm, @C58_bls_pairing, @C58_bls_map_g1,
   @C58_bls_map_g2, @C58_point_evaluation, @C58_blake2f, @C58_message, @C58_message_rejected).
Print Assumptions PropPrecompiles_theorems.
