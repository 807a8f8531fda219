(** * PropPrecompiles: what every precompiled contract costs and answers (C58). *)
From Verif Require Import Base State Rlp Vm Instructions Precompiles Interpreter
  StateSpec StateProofs NumericProofs ArithProofs EvmStep InstrSpec InstrProofs EvmExamples
  PrecompileSpec.
From Coq Require Import ZifyBool ZifyN ZifyNat.
Ltac Zify.zify_post_hook ::= idtac.

(** ** alt_bn128 *)

Lemma option_none {A} (o : option A) (Q : A -> Prop) :
  (forall x, o = Some x <-> Q x) -> (forall x, ~ Q x) -> o = None.
Proof. intros H Hn. destruct o as [x|]; [|done]. destruct (Hn x). by apply H. Qed.

Theorem C58_bn128_add cr d :
  (forall p q, bn_point d 0 p -> bn_point d 64 q ->
     answers cr 6 d 150 (Output (encode1 32 (bn128_add cr p q)))) /\
  ((forall p q, ~ (bn_point d 0 p /\ bn_point d 64 q)) ->
     answers cr 6 d 150 (Fails OutOfGasError)).
Proof.
  split.
  - intros p q Hp Hq. contract pre_alt_bn128_add; [reflexivity|]. intros e w.
    rewrite (proj2 (bn_g1_iff _ _ _) Hp), (proj2 (bn_g1_iff _ _ _) Hq).
    destruct (bn128_add cr p q) as [x y]. reflexivity.
  - intros H. contract pre_alt_bn128_add; [reflexivity|]. intros e w.
    destruct (bn128_bytes_to_g1 (buffer_read d 0 64)) as [p|] eqn:Ep; [|reflexivity].
    destruct (bn128_bytes_to_g1 (buffer_read d 64 64)) as [q|] eqn:Eq; [|reflexivity].
    destruct (H p q). split; by apply bn_g1_iff.
Qed.

Theorem C58_bn128_mul cr d :
  (forall p, bn_point d 0 p ->
     answers cr 7 d 6000 (Output (encode1 32 (bn128_mul cr p (number d 64 32))))) /\
  ((forall p, ~ bn_point d 0 p) -> answers cr 7 d 6000 (Fails OutOfGasError)).
Proof.
  split.
  - intros p Hp. contract pre_alt_bn128_mul; [reflexivity|]. intros e w.
    rewrite (proj2 (bn_g1_iff _ _ _) Hp), number_word.
    destruct (bn128_mul cr p _) as [x y]. reflexivity.
  - intros H. contract pre_alt_bn128_mul; [reflexivity|]. intros e w.
    by rewrite (option_none _ _ (bn_g1_iff d 0) H).
Qed.

Lemma nth_cons_all {A} (R : nat -> A -> Prop) x l :
  (forall i y, nth_error (x :: l) i = Some y -> R i y) <->
  R 0%nat x /\ (forall i y, nth_error l i = Some y -> R (S i) y).
Proof.
  split.
  - intros H. split; [by apply H|]. intros i y Hy. by apply (H (S i)).
  - intros [H0 H] [|i] y; cbn; [by intros [= <-]|apply H].
Qed.
Lemma bn_pairs_iff cr d k : forall i l,
  bn128_pairs cr d i k = Some l <->
  length l = k /\ forall j x, nth_error l j = Some x -> bn_pair cr d (192 * (i + N.of_nat j)) x.
Proof.
  induction k as [|k IH]; intros i l.
  - cbn [bn128_pairs]. split.
    + intros [= <-]. split; [done|]. by intros [|j].
    + intros [H _]. by destruct l.
  - cbn [bn128_pairs]. rewrite bn_R_eq. split.
    + destruct (bn128_bytes_to_g1 _) as [p|] eqn:Ep; [|done].
      destruct (bn128_bytes_to_g2 _) as [q|] eqn:Eq; [|done].
      destruct (is_inf1 _) eqn:E1; cbn [negb]; [|done].
      destruct (is_inf2 _) eqn:E2; cbn [negb]; [|done].
      destruct (bn128_pairs cr d (i + 1) k) as [l'|] eqn:El; [|done]. intros [= <-].
      apply IH in El as [Hl H]. split; [cbn; by rewrite Hl|].
      apply nth_cons_all. split.
      * rewrite N.add_0_r. unfold bn_pair. cbn [fst snd].
        split_and!; [by apply bn_g1_iff | by apply bn_g2_iff
          | by apply is_inf1_eq | by apply is_inf2_eq].
      * intros j y Hy. apply H in Hy. by replace (i + N.of_nat (S j)) with (i + 1 + N.of_nat j) by lia.
    + intros [Hl H]. destruct l as [|[p q] l]; [done|]. apply nth_cons_all in H as [H0 H].
      rewrite N.add_0_r in H0. destruct H0 as (Hp & Hq & E1 & E2). cbn [fst snd] in *.
      rewrite (proj2 (bn_g1_iff _ _ _) Hp), (proj2 (bn_g2_iff _ _ _) Hq).
      rewrite (proj2 (is_inf1_eq _) E1), (proj2 (is_inf2_eq _) E2). cbn [negb].
      rewrite (proj2 (IH (i + 1) l)); [done|]. split; [by injection Hl|].
      intros j y Hy. apply H in Hy. by replace (i + 1 + N.of_nat j) with (i + N.of_nat (S j)) by lia.
Qed.
Lemma records_eq {A} size k (R : N -> A -> Prop) l :
  records size k R l <->
  length l = N.to_nat k /\ forall j x, nth_error l j = Some x -> R (size * (0 + N.of_nat j)) x.
Proof.
  unfold records, lenN. split; intros [H1 H2]; (split; [lia|]); intros j x Hx;
    rewrite ?N.add_0_l in *; by apply H2 in Hx.
Qed.

Theorem C58_bn128_pairing cr d :
  let k := lenN d / 192 in
  let price := 45000 + 34000 * k in
  (forall l, lenN d = 192 * k -> records 192 k (bn_pair cr d) l ->
     answers cr 8 d price (Output (encode 32 (if bn128_pairing_is_one cr l then 1 else 0)))) /\
  ((forall l, ~ (lenN d = 192 * k /\ records 192 k (bn_pair cr d) l)) ->
     answers cr 8 d price (Fails OutOfGasError)).
Proof.
  intros k price. subst k price. pose proof (N.div_mod (lenN d) 192) as Hdm.
  split.
  - intros l Hk Hl. contract pre_alt_bn128_pairing_check; [by rewrite N.add_comm|]. intros e w.
    replace (lenN d mod 192 =? 0) with true by lia. cbn [negb].
    unfold bn128_pairing. apply records_eq in Hl. apply bn_pairs_iff in Hl. rewrite Hl.
    by destruct (bn128_pairing_is_one cr l).
  - intros H. contract pre_alt_bn128_pairing_check; [by rewrite N.add_comm|]. intros e w.
    destruct (lenN d mod 192 =? 0) eqn:Em; cbn [negb]; [|reflexivity].
    unfold bn128_pairing. destruct (bn128_pairs _ _ _ _) as [l|] eqn:El; [|reflexivity].
    destruct (H l). split; [lia|]. apply records_eq. by apply bn_pairs_iff.
Qed.

(** ** BLS12-381 *)

Theorem C58_bls_g1_add cr d :
  (lenN d <> 256 -> rejects cr 0x0b d InvalidParameter) /\
  (forall p q, lenN d = 256 -> bls_point d 0 p -> bls_point d 128 q ->
     answers cr 0x0b d 375 (Output (encode1 64 (bls_g1_add cr p q)))) /\
  (lenN d = 256 -> (forall p q, ~ (bls_point d 0 p /\ bls_point d 128 q)) ->
     answers cr 0x0b d 375 (Fails InvalidParameter)).
Proof.
  pose proof (fun s p => bls_g1_iff cr _ _ _ false p (same_read d s 128)) as HI.
  split_and!.
  - intros H. rejected pre_bls12_g1_add. by rewrite (proj2 (N.eqb_neq _ _) H).
  - intros p q H Hp Hq. contract pre_bls12_g1_add; [rewrite H; reflexivity|]. intros e w.
    unfold bls12_g1_add_op. rewrite (proj2 (HI 0 p)), (proj2 (HI 128 q)) by done. reflexivity.
  - intros H Hno. contract pre_bls12_g1_add; [rewrite H; reflexivity|]. intros e w.
    unfold bls12_g1_add_op.
    destruct (bytes_to_g1 cr (buffer_read d 0 128) false) as [p|] eqn:Ep; [|reflexivity].
    destruct (bytes_to_g1 cr (buffer_read d 128 128) false) as [q|] eqn:Eq; [|reflexivity].
    destruct (Hno p q). apply HI in Ep, Eq. tauto.
Qed.

Theorem C58_bls_g2_add cr d :
  (lenN d <> 512 -> rejects cr 0x0d d InvalidParameter) /\
  (forall p q, lenN d = 512 -> bls_twist_point d 0 p -> bls_twist_point d 256 q ->
     answers cr 0x0d d 600 (Output (encode2 64 (bls_g2_add cr p q)))) /\
  (lenN d = 512 -> (forall p q, ~ (bls_twist_point d 0 p /\ bls_twist_point d 256 q)) ->
     answers cr 0x0d d 600 (Fails InvalidParameter)).
Proof.
  pose proof (fun s p => bls_g2_iff cr _ _ _ false p (same_read d s 256)) as HI.
  split_and!.
  - intros H. rejected pre_bls12_g2_add. by rewrite (proj2 (N.eqb_neq _ _) H).
  - intros p q H Hp Hq. contract pre_bls12_g2_add; [rewrite H; reflexivity|]. intros e w.
    unfold bls12_g2_add_op. rewrite (proj2 (HI 0 p)), (proj2 (HI 256 q)) by done. reflexivity.
  - intros H Hno. contract pre_bls12_g2_add; [rewrite H; reflexivity|]. intros e w.
    unfold bls12_g2_add_op.
    destruct (bytes_to_g2 cr (buffer_read d 0 256) false) as [p|] eqn:Ep; [|reflexivity].
    destruct (bytes_to_g2 cr (buffer_read d 256 256) false) as [q|] eqn:Eq; [|reflexivity].
    destruct (Hno p q). apply HI in Ep, Eq. tauto.
Qed.

Lemma msm_discount table last k : length table = 128%nat -> nth 127 table 0 = last ->
  0 < k -> (if k <=? 128 then default 0 (nthN table (k - 1)) else last) = discount table k.
Proof.
  intros Hl Hlast Hk. unfold discount. rewrite Hl. destruct (k <=? 128) eqn:E.
  - rewrite Nat.min_l by lia. rewrite nthN_nth_error.
    replace (N.to_nat (k - 1)) with (N.to_nat k - 1)%nat by lia.
    generalize (N.to_nat k - 1)%nat as i. clear. intros i. revert i. induction table as [|x t IH]; intros [|i]; cbn; try done.
  - rewrite Nat.min_r by lia. by subst.
Qed.
Lemma msm_price table last k gas : length table = 128%nat -> nth 127 table 0 = last -> 0 < k ->
  msm_gas k gas table last = k * gas * discount table k / 1000.
Proof. intros H1 H2 H3. unfold msm_gas. by rewrite (msm_discount table last k). Qed.

(** The scalar products: the loop adds one term after the other. *)
Lemma term1_iff cr d s x : s + 160 <= lenN d ->
  decode_g1_scalar_pair cr (sliceN s (s + 160) d) = Some x <-> bls_term1 cr d s x.
Proof.
  intros H. unfold decode_g1_scalar_pair, bls_term1.
  pose proof (same_slice d s 160 H) as HS.
  pose proof (fun p => bls_g1_iff cr _ _ _ true p (same_take _ _ _ 160 128 ltac:(done) HS)) as HI.
  rewrite number_read, (proj2 HS) by done.
  generalize (number d (s + 128) 32). intros m.
  generalize dependent (bytes_to_g1 cr (takeN 128 (sliceN s (s + 160) d)) true). intros o HI.
  split.
  - destruct o as [p|]; [|done]. intros [= <-]. cbn [fst snd].
    destruct (proj1 (HI p) eq_refl) as [H1 H2]. split_and!; [done|by apply H2|done].
  - destruct x as [p m']. cbn [fst snd]. intros (H1 & H2 & ->).
    by rewrite (proj2 (HI p)).
Qed.
Lemma term2_iff cr d s x : s + 288 <= lenN d ->
  decode_g2_scalar_pair cr (sliceN s (s + 288) d) = Some x <-> bls_term2 cr d s x.
Proof.
  intros H. unfold decode_g2_scalar_pair, bls_term2.
  pose proof (same_slice d s 288 H) as HS.
  pose proof (fun p => bls_g2_iff cr _ _ _ true p (same_take _ _ _ 288 256 ltac:(done) HS)) as HI.
  rewrite number_slice by (rewrite (proj1 HS); done). rewrite (proj2 HS) by done.
  generalize (number d (s + 256) 32). intros m.
  generalize dependent (bytes_to_g2 cr (takeN 256 (sliceN s (s + 288) d)) true). intros o HI.
  split.
  - destruct o as [p|]; [|done]. intros [= <-]. cbn [fst snd].
    destruct (proj1 (HI p) eq_refl) as [H1 H2]. split_and!; [done|by apply H2|done].
  - destruct x as [p m']. cbn [fst snd]. intros (H1 & H2 & ->).
    by rewrite (proj2 (HI p)).
Qed.

Definition plus_all {A} (add : A -> A -> A) (acc : option A) (l : list A) : option A :=
  match acc, l with
  | None, [] => None
  | None, x :: rest => Some (fold_left add rest x)
  | Some a, l => Some (fold_left add l a)
  end.
Lemma plus_all_cons {A} (add : A -> A -> A) acc x l :
  plus_all add acc (x :: l) =
  plus_all add (Some match acc with None => x | Some a => add a x end) l.
Proof. by destruct acc. Qed.

Lemma msm1_iff cr d k : forall i acc r, 160 * (i + N.of_nat k) <= lenN d ->
  bls12_g1_msm_loop cr d i k acc = Some r <->
  exists l, length l = k /\
    (forall j x, nth_error l j = Some x -> bls_term1 cr d (160 * (i + N.of_nat j)) x) /\
    r = plus_all (bls_g1_add cr) acc (map (fun t => bls_g1_mul cr t.1 t.2) l).
Proof.
  induction k as [|k IH]; intros i acc r Hd.
  - cbn [bls12_g1_msm_loop]. split.
    + intros [= <-]. exists []. split; [done|]. split; [by intros [|j]|]. by destruct acc.
    + intros ([|x l] & H & _ & ->); [|done]. by destruct acc.
  - cbn [bls12_g1_msm_loop]. rewrite (N.mul_comm i 160). split.
    + destruct (decode_g1_scalar_pair _ _) as [[p m]|] eqn:Ex; [|done].
      apply term1_iff in Ex; [|lia]. intros Hr. apply IH in Hr as (l & Hl & H & ->); [|lia].
      exists ((p, m) :: l). split; [cbn; by rewrite Hl|]. split.
      * apply nth_cons_all. split; [by rewrite N.add_0_r|].
        intros j y Hy. apply H in Hy.
        by replace (i + N.of_nat (S j)) with (i + 1 + N.of_nat j) by lia.
      * cbn [map fst snd]. by rewrite plus_all_cons.
    + intros ([|[p m] l] & Hl & H & ->); [done|]. apply nth_cons_all in H as [H0 H].
      rewrite N.add_0_r in H0. apply term1_iff in H0; [|lia]. rewrite H0.
      apply IH; [lia|]. exists l. split; [by injection Hl|]. split.
      * intros j y Hy. apply H in Hy.
        by replace (i + 1 + N.of_nat j) with (i + N.of_nat (S j)) by lia.
      * cbn [map fst snd]. by rewrite plus_all_cons.
Qed.
Lemma msm2_iff cr d k : forall i acc r, 288 * (i + N.of_nat k) <= lenN d ->
  bls12_g2_msm_loop cr d i k acc = Some r <->
  exists l, length l = k /\
    (forall j x, nth_error l j = Some x -> bls_term2 cr d (288 * (i + N.of_nat j)) x) /\
    r = plus_all (bls_g2_add cr) acc (map (fun t => bls_g2_mul cr t.1 t.2) l).
Proof.
  induction k as [|k IH]; intros i acc r Hd.
  - cbn [bls12_g2_msm_loop]. split.
    + intros [= <-]. exists []. split; [done|]. split; [by intros [|j]|]. by destruct acc.
    + intros ([|x l] & H & _ & ->); [|done]. by destruct acc.
  - cbn [bls12_g2_msm_loop]. rewrite (N.mul_comm i 288). split.
    + destruct (decode_g2_scalar_pair _ _) as [[p m]|] eqn:Ex; [|done].
      apply term2_iff in Ex; [|lia]. intros Hr. apply IH in Hr as (l & Hl & H & ->); [|lia].
      exists ((p, m) :: l). split; [cbn; by rewrite Hl|]. split.
      * apply nth_cons_all. split; [by rewrite N.add_0_r|].
        intros j y Hy. apply H in Hy.
        by replace (i + N.of_nat (S j)) with (i + 1 + N.of_nat j) by lia.
      * cbn [map fst snd]. by rewrite plus_all_cons.
    + intros ([|[p m] l] & Hl & H & ->); [done|]. apply nth_cons_all in H as [H0 H].
      rewrite N.add_0_r in H0. apply term2_iff in H0; [|lia]. rewrite H0.
      apply IH; [lia|]. exists l. split; [by injection Hl|]. split.
      * intros j y Hy. apply H in Hy.
        by replace (i + 1 + N.of_nat j) with (i + N.of_nat (S j)) by lia.
      * cbn [map fst snd]. by rewrite plus_all_cons.
Qed.
Lemma plus_all_total {A} (add : A -> A -> A) mul (l : list (A * N)) zero :
  l <> [] -> plus_all add None (map (fun t => mul t.1 t.2) l) = Some (total add mul l zero).
Proof. by destruct l. Qed.

Theorem C58_bls_g1_msm cr d :
  let k := lenN d / 160 in
  let price := k * 12000 * discount discounts1 k / 1000 in
  (k = 0 \/ lenN d <> 160 * k -> rejects cr 0x0c d InvalidParameter) /\
  (forall l, 0 < k -> lenN d = 160 * k -> records 160 k (bls_term1 cr d) l ->
     answers cr 0x0c d price
       (Output (encode1 64 (total (bls_g1_add cr) (bls_g1_mul cr) l (0, 0))))) /\
  (0 < k -> lenN d = 160 * k -> (forall l, ~ records 160 k (bls_term1 cr d) l) ->
     answers cr 0x0c d price (Fails InvalidParameter)).
Proof.
  intros k price. pose proof (N.div_mod (lenN d) 160) as Hdm.
  assert (HG : 0 < k -> msm_gas k GAS_BLS_G1_MUL G1_K_DISCOUNT G1_MAX_DISCOUNT = price)
    by (intros Hk; by apply msm_price).
  pose proof (N.mod_lt (lenN d) 160 ltac:(done)) as Hml. fold k in Hdm.
  split_and!.
  - intros H. rejected pre_bls12_g1_msm.
    replace ((lenN d =? 0) || negb (lenN d mod 160 =? 0)) with true; [done|].
    destruct (lenN d =? 0) eqn:E1, (lenN d mod 160 =? 0) eqn:E2; cbn; try done. lia.
  - intros l Hk Hsz Hl. contract pre_bls12_g1_msm.
    { replace ((lenN d =? 0) || negb (lenN d mod 160 =? 0)) with false by lia.
      fold k. by rewrite HG. }
    intros e w. unfold bls12_g1_msm_op. fold k. apply records_eq in Hl as [Hl Ht].
    rewrite (proj2 (msm1_iff cr d (N.to_nat k) 0 None (Some (total (bls_g1_add cr) (bls_g1_mul cr) l (0, 0)))
      ltac:(lia))); [done|].
    exists l. split; [done|]. split; [done|].
    symmetry. apply plus_all_total. intros ->. cbn in Hl. lia.
  - intros Hk Hsz Hno. contract pre_bls12_g1_msm.
    { replace ((lenN d =? 0) || negb (lenN d mod 160 =? 0)) with false by lia.
      fold k. by rewrite HG. }
    intros e w. unfold bls12_g1_msm_op.
    destruct (bls12_g1_msm_loop _ _ _ _ _) as [r|] eqn:Er; [|done].
    apply msm1_iff in Er as (l & Hl & Ht & _); [|fold k; lia].
    destruct (Hno l). by apply records_eq.
Qed.

Theorem C58_bls_g2_msm cr d :
  let k := lenN d / 288 in
  let price := k * 22500 * discount discounts2 k / 1000 in
  (k = 0 \/ lenN d <> 288 * k -> rejects cr 0x0e d InvalidParameter) /\
  (forall l, 0 < k -> lenN d = 288 * k -> records 288 k (bls_term2 cr d) l ->
     answers cr 0x0e d price
       (Output (encode2 64 (total (bls_g2_add cr) (bls_g2_mul cr) l infinity2)))) /\
  (0 < k -> lenN d = 288 * k -> (forall l, ~ records 288 k (bls_term2 cr d) l) ->
     answers cr 0x0e d price (Fails InvalidParameter)).
Proof.
  intros k price. pose proof (N.div_mod (lenN d) 288) as Hdm.
  assert (HG : 0 < k -> msm_gas k GAS_BLS_G2_MUL G2_K_DISCOUNT G2_MAX_DISCOUNT = price)
    by (intros Hk; by apply msm_price).
  pose proof (N.mod_lt (lenN d) 288 ltac:(done)) as Hml. fold k in Hdm.
  split_and!.
  - intros H. rejected pre_bls12_g2_msm.
    replace ((lenN d =? 0) || negb (lenN d mod 288 =? 0)) with true; [done|].
    destruct (lenN d =? 0) eqn:E1, (lenN d mod 288 =? 0) eqn:E2; cbn; try done. lia.
  - intros l Hk Hsz Hl. contract pre_bls12_g2_msm.
    { replace ((lenN d =? 0) || negb (lenN d mod 288 =? 0)) with false by lia.
      fold k. by rewrite HG. }
    intros e w. unfold bls12_g2_msm_op. fold k. apply records_eq in Hl as [Hl Ht].
    rewrite (proj2 (msm2_iff cr d (N.to_nat k) 0 None (Some (total (bls_g2_add cr) (bls_g2_mul cr) l infinity2))
      ltac:(lia))); [done|].
    exists l. split; [done|]. split; [done|].
    symmetry. apply plus_all_total. intros ->. cbn in Hl. lia.
  - intros Hk Hsz Hno. contract pre_bls12_g2_msm.
    { replace ((lenN d =? 0) || negb (lenN d mod 288 =? 0)) with false by lia.
      fold k. by rewrite HG. }
    intros e w. unfold bls12_g2_msm_op.
    destruct (bls12_g2_msm_loop _ _ _ _ _) as [r|] eqn:Er; [|done].
    apply msm2_iff in Er as (l & Hl & Ht & _); [|fold k; lia].
    destruct (Hno l). by apply records_eq.
Qed.

Lemma bls_pairs_iff cr d k : forall i l, 384 * (i + N.of_nat k) <= lenN d ->
  bls12_pairs cr d i k = Some l <->
  length l = k /\ forall j x, nth_error l j = Some x -> bls_pair cr d (384 * (i + N.of_nat j)) x.
Proof.
  induction k as [|k IH]; intros i l Hd.
  - cbn [bls12_pairs]. split.
    + intros [= <-]. split; [done|]. by intros [|j].
    + intros [H _]. by destruct l.
  - cbn [bls12_pairs]. rewrite bls_R_eq.
    pose proof (fun p => bls_g1_iff cr _ _ _ false p (same_slice d (384 * i) 128 ltac:(lia))) as H1.
    pose proof (fun p => bls_g2_iff cr _ _ _ false p (same_slice d (384 * i + 128) 256 ltac:(lia))) as H2.
    split.
    + destruct (bytes_to_g1 _ _ _) as [p|] eqn:Ep; [|done].
      destruct (is_inf1 _) eqn:E1; cbn [negb]; [|done].
      destruct (bytes_to_g2 _ _ _) as [q|] eqn:Eq; [|done].
      destruct (is_inf2 _) eqn:E2; cbn [negb]; [|done].
      destruct (bls12_pairs cr d (i + 1) k) as [l'|] eqn:El; [|done]. intros [= <-].
      apply IH in El as [Hl H]; [|lia]. split; [cbn; by rewrite Hl|].
      apply nth_cons_all. split.
      * rewrite N.add_0_r. unfold bls_pair. cbn [fst snd].
        split_and!; [by apply H1 | by apply H2 | by apply is_inf1_eq | by apply is_inf2_eq].
      * intros j y Hy. apply H in Hy. by replace (i + N.of_nat (S j)) with (i + 1 + N.of_nat j) by lia.
    + intros [Hl H]. destruct l as [|[p q] l]; [done|]. apply nth_cons_all in H as [H0 H].
      rewrite N.add_0_r in H0. destruct H0 as (Hp & Hq & E1 & E2). cbn [fst snd] in *.
      rewrite (proj2 (H1 p)), (proj2 (H2 q)) by done.
      rewrite (proj2 (is_inf1_eq _) E1), (proj2 (is_inf2_eq _) E2). cbn [negb].
      rewrite (proj2 (IH (i + 1) l ltac:(lia))); [done|]. split; [by injection Hl|].
      intros j y Hy. apply H in Hy. by replace (i + 1 + N.of_nat j) with (i + N.of_nat (S j)) by lia.
Qed.

Theorem C58_bls_pairing cr d :
  let k := lenN d / 384 in
  let price := 37700 + 32600 * k in
  (k = 0 \/ lenN d <> 384 * k -> rejects cr 0x0f d InvalidParameter) /\
  (forall l, 0 < k -> lenN d = 384 * k -> records 384 k (bls_pair cr d) l ->
     answers cr 0x0f d price (Output (encode 32 (if bls_pairing_is_one cr l then 1 else 0)))) /\
  (0 < k -> lenN d = 384 * k -> (forall l, ~ records 384 k (bls_pair cr d) l) ->
     answers cr 0x0f d price (Fails InvalidParameter)).
Proof.
  intros k price. pose proof (N.div_mod (lenN d) 384) as Hdm.
  pose proof (N.mod_lt (lenN d) 384 ltac:(done)) as Hml. fold k in Hdm.
  split_and!.
  - intros H. rejected pre_bls12_pairing.
    replace ((lenN d =? 0) || negb (lenN d mod 384 =? 0)) with true; [done|].
    destruct (lenN d =? 0) eqn:E1, (lenN d mod 384 =? 0) eqn:E2; cbn; try done. lia.
  - intros l Hk Hsz Hl. contract pre_bls12_pairing.
    { replace ((lenN d =? 0) || negb (lenN d mod 384 =? 0)) with false by lia.
      fold k. unfold price. by rewrite N.add_comm. }
    intros e w. unfold bls12_pairing_op. fold k. apply records_eq in Hl.
    rewrite (proj2 (bls_pairs_iff cr d (N.to_nat k) 0 l ltac:(lia)) Hl).
    by destruct (bls_pairing_is_one cr l).
  - intros Hk Hsz Hno. contract pre_bls12_pairing.
    { replace ((lenN d =? 0) || negb (lenN d mod 384 =? 0)) with false by lia.
      fold k. unfold price. by rewrite N.add_comm. }
    intros e w. unfold bls12_pairing_op.
    destruct (bls12_pairs _ _ _ _) as [l|] eqn:El; [|done].
    apply bls_pairs_iff in El; [|fold k; lia].
    destruct (Hno l). by apply records_eq.
Qed.

Theorem C58_bls_map_g1 cr d :
  let x := number d 0 64 in
  (lenN d <> 64 -> rejects cr 0x10 d InvalidParameter) /\
  (lenN d = 64 -> answers cr 0x10 d 5500
     (if x <? bls_P then Output (encode1 64 (bls_map_to_g1 cr x)) else Fails InvalidParameter)).
Proof.
  intros x. split; intros H.
  - rejected pre_bls12_map_fp_to_g1. by rewrite (proj2 (N.eqb_neq _ _) H).
  - contract pre_bls12_map_fp_to_g1; [rewrite H; reflexivity|]. intros e w.
    unfold bls12_map_fp_to_g1_op. rewrite (number_all d 64 H). fold x. rewrite bls_P_eq.
    rewrite N.ltb_antisym. by destruct (bls_P <=? x).
Qed.

Theorem C58_bls_map_g2 cr d :
  let x := (number d 0 64, number d 64 64) in
  (lenN d <> 128 -> rejects cr 0x11 d InvalidParameter) /\
  (lenN d = 128 -> answers cr 0x11 d 23800
     (if (x.1 <? bls_P) && (x.2 <? bls_P) then Output (encode2 64 (bls_map_to_g2 cr x))
      else Fails InvalidParameter)).
Proof.
  intros x. split; intros H.
  - rejected pre_bls12_map_fp2_to_g2. by rewrite (proj2 (N.eqb_neq _ _) H).
  - contract pre_bls12_map_fp2_to_g2; [rewrite H; reflexivity|]. intros e w.
    unfold bls12_map_fp2_to_g2_op.
    assert (HS : same_numbers d d 0 128) by (split; [done|]; intros; f_equal; lia).
    pose proof (fun y => fq2_iff d d 0 y HS) as HI. rewrite N.add_0_l in HI. fold x in HI.
    generalize dependent (bytes_to_fq2 d). intros o HI.
    generalize dependent x. clear. generalize bls_P as P. intros P x HI.
    destruct ((x.1 <? P) && (x.2 <? P)) eqn:E.
    + rewrite (proj2 (HI x)); [done|]. split_and!; [done|lia|lia].
    + destruct o as [y|]; [|done]. destruct (proj1 (HI y) eq_refl) as (-> & H1 & H2). lia.
Qed.

(** ** Point evaluation *)

Theorem C58_point_evaluation cr d :
  (lenN d <> 192 -> rejects cr 0x0a d KZGProofError) /\
  (lenN d = 192 -> kzg_proves cr d ->
     answers cr 0x0a d 50000 (Output (encode 32 4096 ++ encode 32 bls_R))) /\
  (lenN d = 192 -> ~ kzg_proves cr d -> answers cr 0x0a d 50000 (Fails KZGProofError)).
Proof.
  split; [|].
  { intros H. rejected pre_point_evaluation. by rewrite (proj2 (N.eqb_neq _ _) H). }
  assert (HV : forall b, validate_kzg_g1 cr b = true <-> valid_g1 cr b).
  { intros b. unfold validate_kzg_g1, valid_g1.
    destruct (bytes_eqb b G1_POINT_AT_INFINITY) eqn:E.
    - apply bytes_eqb_eq in E as ->. split; [by left|done].
    - split; [by right|]. intros [-> | H]; [|done]. by rewrite (proj2 (bytes_eqb_eq _ _)) in E. }
  assert (HN : forall x, x < bls_R -> (bls_R - x) mod bls_R = negated x).
  { intros x Hx. unfold negated.
    assert (HR : bls_R <> 0) by done. generalize dependent bls_R. clear. intros R Hx HR.
    rewrite <- (N2Z.id ((R - x) mod R)). f_equal.
    rewrite N2Z.inj_mod, N2Z.inj_sub by lia.
    replace (Z.of_N R - Z.of_N x)%Z with (- Z.of_N x + 1 * Z.of_N R)%Z by ring.
    apply Z.mod_add. lia. }
  assert (HB : lenN d = 192 ->
    kzg_proves cr d <->
    negb (bytes_eqb (Byte.x01 :: dropN 1 (sha256_digest cr (sliceN 96 144 d))) (takeN 32 d)) = false /\
    negb (verify_kzg_proof cr (sliceN 96 144 d) (sliceN 32 64 d) (sliceN 64 96 d) (sliceN 144 192 d)) = false).
  { intros H. unfold kzg_proves.
    assert (E1 : takeN 48 (dropN 96 d) = sliceN 96 144 d) by done.
    assert (E2 : dropN 144 d = sliceN 144 192 d).
    { unfold sliceN. rewrite takeN_firstn. symmetry. apply firstn_all2.
      pose proof (lenN_dropN 144 d) as HL. unfold lenN in *. lia. }
    rewrite E1, E2. rewrite !negb_false_iff, bytes_eqb_eq.
    assert (EZ : from_be_bytes (sliceN 32 64 d) = number d 32 32)
      by (apply (number_slice d 32 32); rewrite H; done).
    assert (EY : from_be_bytes (sliceN 64 96 d) = number d 64 32)
      by (apply (number_slice d 64 32); rewrite H; done).
    unfold verify_kzg_proof, bytes_to_bls_field, verify_kzg_proof_impl. rewrite EZ, EY, bls_R_eq.
    rewrite <- !HV.
    generalize (sliceN 96 144 d) as c, (sliceN 144 192 d) as pi. intros c pi.
    generalize (number d 32 32) as z, (number d 64 32) as y. intros z y. split.
    - intros (H1 & Hz & Hy & Hc & Hp & X & C & Q & EX & EC & EQ & Hpair).
      split; [done|]. rewrite Hc, Hp. cbn [negb].
      rewrite (proj2 (N.ltb_lt _ _) Hz), (proj2 (N.ltb_lt _ _) Hy), EX, EC, EQ.
      by rewrite !HN.
    - intros [H1 H2]. split; [done|].
      destruct (validate_kzg_g1 cr c) eqn:Hc; cbn [negb] in H2; [|done].
      destruct (z <? bls_R) eqn:Hz; [|done]. destruct (y <? bls_R) eqn:Hy; [|done].
      destruct (validate_kzg_g1 cr pi) eqn:Hp; cbn [negb] in H2; [|done].
      apply N.ltb_lt in Hz, Hy.
      destruct (bls_signature_to_g2 _ _) as [X|]; [|done].
      destruct (bls_pubkey_to_g1 cr c) as [C|]; [|done].
      destruct (bls_pubkey_to_g1 cr pi) as [Q|]; [|done].
      rewrite !HN in H2 by done.
      split_and!; try done. by exists X, C, Q. }
  split; intros H HK.
  - apply HB in HK as [H1 H2]; [|done].
    contract pre_point_evaluation; [rewrite H; reflexivity|]. intros e w. by rewrite H1, H2.
  - contract pre_point_evaluation; [rewrite H; reflexivity|]. intros e w.
    destruct (negb (bytes_eqb _ _)) eqn:E1; [done|].
    destruct (negb (verify_kzg_proof _ _ _ _ _)) eqn:E2; [done|].
    destruct HK. by apply HB.
Qed.
