(** * PropBloom: property C23 (the logs bloom). *)
From Coq Require Import Permutation.
From Verif Require Import Base State Vm StateSpec StateProofs NumericProofs Bloom EvmExamples.
Ltac Zify.zify_post_hook ::= idtac.

(** ** Bits of big-endian byte strings *)
Lemma from_be_testbit l k : N.testbit (from_be_bytes l) k
  = match nth_error (rev l) (N.to_nat (k / 8)) with
    | Some b => N.testbit (Byte.to_N b) (k mod 8)
    | None => false
    end.
Proof.
  revert k. induction l as [|b l IH] using rev_ind; intros k.
  - cbn [rev]. change (from_be_bytes []) with 0. rewrite N.bits_0.
    by destruct (N.to_nat (k / 8)).
  - rewrite rev_app_distr. cbn [rev app]. rewrite from_be_snoc.
    pose proof (byte_to_N_lt b) as Hb.
    destruct (N.lt_ge_cases k 8) as [Hk|Hk].
    + rewrite (N.div_small k 8), (N.mod_small k 8) by done. cbn [N.to_nat nth_error].
      rewrite <- (N.mod_pow2_bits_low _ 8) by done. change (2 ^ 8) with 256.
      rewrite N.add_comm, N.mod_add, N.mod_small by lia. done.
    + replace k with ((k - 8) + 8) at 1 by lia.
      rewrite <- N.div_pow2_bits. change (2 ^ 8) with 256.
      rewrite N.add_comm, N.div_add, N.div_small, N.add_0_l by lia.
      rewrite IH. set (j := k - 8). replace k with (j + 1 * 8) by lia.
      rewrite N.div_add, N.mod_add by lia.
      by replace (N.to_nat (j / 8 + 1)) with (S (N.to_nat (j / 8))) by lia.
Qed.

Lemma from_be_zeros n : from_be_bytes (zeros n) = 0.
Proof.
  unfold zeros. induction (N.to_nat n) as [|m IH]; [done|].
  cbn [repeat]. rewrite from_be_cons, IH. cbn [Byte.to_N]. lia.
Qed.

(** The bloom as a 2048-bit number: byte 0 is the most significant. *)
Section C23.
  Context (cr : crypto).

  (** ** Specification: the three bit positions of an entry *)
  Definition position (entry : bytes) (i : N) : N :=
    from_be_bytes (sliceN (2 * i) (2 * i + 2) (keccak256 cr entry)) mod 2048.
  Definition has_bit (bloom : bytes) (k : N) : Prop :=
    N.testbit (from_be_bytes bloom) k = true.
  (** An entry of a log: its address or one of its topics. *)
  Definition entry_of (l : log) (entry : bytes) : Prop :=
    entry = to_be_bytes20 (log_address l) \/
    exists topic, In topic (log_topics l) /\ entry = to_be_bytes32 topic.

  Lemma add_bit_spec hash bloom idx : length bloom = 256%nat ->
    length (add_bit hash bloom idx) = 256%nat /\
    from_be_bytes (add_bit hash bloom idx)
    = N.setbit (from_be_bytes bloom)
        (from_be_bytes (sliceN idx (idx + 2) hash) mod 2048).
  Proof.
    intros Hlen. unfold add_bit.
    set (x := from_be_bytes (sliceN idx (idx + 2) hash)).
    change 2047 with (N.ones 11). rewrite N.land_ones. change (2 ^ 11) with 2048.
    assert (Hk : x mod 2048 < 2048) by (apply N.mod_lt; lia).
    set (k := x mod 2048) in *. change (N.ones 11) with 2047.
    set (bi := (2047 - k) / 8).
    assert (Hq : 2047 - k = 8 * (255 - k / 8) + (7 - k mod 8)).
    { pose proof (N.div_mod k 8 ltac:(lia)). pose proof (N.mod_lt k 8 ltac:(lia)).
      assert (k / 8 < 256) by (apply N.div_lt_upper_bound; lia). lia. }
    pose proof (N.mod_lt k 8 ltac:(lia)) as Hm.
    assert (Hk8 : k / 8 < 256) by (apply N.div_lt_upper_bound; lia).
    assert (Hbi : bi = 255 - k / 8).
    { unfold bi. symmetry. apply (N.div_unique _ _ _ (7 - k mod 8)); lia. }
    assert (Hmod : (2047 - k) mod 8 = 7 - k mod 8).
    { symmetry. apply (N.mod_unique _ _ (255 - k / 8)); lia. }
    rewrite Hmod. replace (7 - (7 - k mod 8)) with (k mod 8) by lia.
    rewrite nthN_nth_error.
    destruct (nth_error bloom (N.to_nat bi)) as [b|] eqn:Eb.
    2:{ apply nth_error_None in Eb. lia. }
    split; [by rewrite insert_length|].
    apply N.bits_inj. intros j. rewrite N.setbit_eqb.
    rewrite !from_be_testbit.
    assert (Hrev : forall (l : bytes) m, length l = 256%nat -> (m < 256)%nat ->
      nth_error (rev l) m = nth_error l (255 - m)).
    { intros l m Hl Hm'. rewrite (nth_error_nth' _ Byte.x00) by (rewrite rev_length; lia).
      rewrite (nth_error_nth' _ Byte.x00) by lia. f_equal.
      rewrite rev_nth by lia. f_equal. lia. }
    destruct (Nat.lt_ge_cases (N.to_nat (j / 8)) 256) as [Hj|Hj].
    2:{ pose proof (proj2 (nth_error_None (rev bloom) (N.to_nat (j / 8)))) as E1.
        pose proof (proj2 (nth_error_None (rev (<[N.to_nat bi:=byte_of_N
          (N.lor (Byte.to_N b) (N.shiftl 1 (k mod 8)))]> bloom)) (N.to_nat (j / 8)))) as E2.
        rewrite rev_length in E1, E2. rewrite insert_length in E2.
        rewrite E1, E2 by lia. rewrite orb_false_r.
        destruct (N.eqb_spec k j) as [->|]; [lia|done]. }
    rewrite !Hrev by (rewrite ?insert_length; done).
    assert (Hne : forall (l : bytes) i, nth_error l i = l !! i).
    { induction l as [|c l IHl]; intros [|i]; cbn; auto. }
    rewrite !Hne in *.
    destruct (decide (N.to_nat bi = (255 - N.to_nat (j / 8))%nat)) as [Eq|Neq].
    - rewrite <- Eq. rewrite list_lookup_insert by (rewrite Hlen; lia). rewrite Eb.
      assert (Hjk : j / 8 = k / 8) by lia.
      rewrite byte_of_N_to_N.
      + rewrite N.lor_spec. rewrite orb_comm. f_equal.
        rewrite N.shiftl_1_l, N.pow2_bits_eqb.
        apply eq_true_iff_eq. rewrite !N.eqb_eq.
        pose proof (N.div_mod k 8 ltac:(lia)). pose proof (N.div_mod j 8 ltac:(lia)).
        rewrite Hjk in *. lia.
      + rewrite N.shiftl_1_l. pose proof (byte_to_N_lt b) as Hb.
        destruct (N.eq_dec (N.lor (Byte.to_N b) (2 ^ (k mod 8))) 0) as [->|Hz]; [lia|].
        apply (N.log2_lt_cancel _ 256). change (N.log2 256) with 8.
        rewrite N.log2_lor, N.log2_pow2 by lia.
        destruct (N.eq_dec (Byte.to_N b) 0) as [->|Hb0]; [rewrite N.log2_nonpos by lia; lia|].
        assert (N.log2 (Byte.to_N b) < 8) by (apply N.log2_lt_pow2; lia). lia.
    - rewrite list_lookup_insert_ne by done.
      destruct (N.eqb_spec k j) as [->|]; [|done]. exfalso. apply Neq. lia.
  Qed.

  (** The number with exactly the bits of one entry. *)
  Definition entry_bits (e : bytes) (x : N) : N :=
    N.setbit (N.setbit (N.setbit x (position e 0)) (position e 1)) (position e 2).

  Lemma add_to_bloom_spec bloom e : length bloom = 256%nat ->
    length (add_to_bloom cr bloom e) = 256%nat /\
    from_be_bytes (add_to_bloom cr bloom e) = entry_bits e (from_be_bytes bloom).
  Proof.
    intros H. unfold add_to_bloom. cbn [fold_left].
    destruct (add_bit_spec (keccak256 cr e) bloom 0 H) as [H1 E1].
    destruct (add_bit_spec (keccak256 cr e) _ 2 H1) as [H2 E2].
    destruct (add_bit_spec (keccak256 cr e) _ 4 H2) as [H3 E3].
    split; [done|]. rewrite E3, E2, E1. reflexivity.
  Qed.

  Lemma entry_bits_testbit e x k : N.testbit (entry_bits e x) k = true <->
    (exists i, i < 3 /\ k = position e i) \/ N.testbit x k = true.
  Proof.
    unfold entry_bits. rewrite !N.setbit_eqb, !orb_true_iff, !N.eqb_eq. split.
    - intros [<-|[<-|[<-|?]]]; [left; exists 2|left; exists 1|left; exists 0|by right];
        (split; [lia|done]).
    - intros [(i & Hi & ->)|?]; [|tauto].
      assert (i = 0 \/ i = 1 \/ i = 2) as [->|[->| ->]] by lia; tauto.
  Qed.

  Lemma topics_spec topics bloom : length bloom = 256%nat ->
    let b' := fold_left (fun bloom topic => add_to_bloom cr bloom (to_be_bytes32 topic)) topics bloom in
    length b' = 256%nat /\
    forall k, has_bit b' k <->
      (exists t i, In t topics /\ i < 3 /\ k = position (to_be_bytes32 t) i) \/ has_bit bloom k.
  Proof.
    revert bloom. induction topics as [|t ts IH]; intros bloom H; cbn [fold_left].
    - split; [done|]. intros k. split; [by right|]. intros [(t & i & [] & _)|?]; done.
    - destruct (add_to_bloom_spec bloom (to_be_bytes32 t) H) as [H1 E1].
      destruct (IH _ H1) as [H2 E2]. split; [done|]. intros k.
      rewrite E2. unfold has_bit at 1. rewrite E1, entry_bits_testbit. split.
      + intros [(t' & i & Hin & Hi & ->)|[(i & Hi & ->)|?]]; [left|left|by right].
        * exists t', i. split; [by right|done].
        * exists t, i. split; [by left|done].
      + intros [(t' & i & [->|Hin] & Hi & ->)|?]; [| |by right; right].
        * right. left. eauto.
        * left. eauto.
  Qed.

  Lemma bloom_fold_spec logs bloom : length bloom = 256%nat ->
    let b' := fold_left
      (fun bloom l =>
         fold_left (fun bloom topic => add_to_bloom cr bloom (to_be_bytes32 topic))
           (log_topics l)
           (add_to_bloom cr bloom (to_be_bytes20 (log_address l)))) logs bloom in
    length b' = 256%nat /\
    forall k, has_bit b' k <->
      (exists l e i, In l logs /\ entry_of l e /\ i < 3 /\ k = position e i) \/ has_bit bloom k.
  Proof.
    revert bloom. induction logs as [|l ls IH]; intros bloom H; cbn [fold_left].
    - split; [done|]. intros k. split; [by right|]. intros [(t & e & i & [] & _)|?]; done.
    - destruct (add_to_bloom_spec bloom (to_be_bytes20 (log_address l)) H) as [H1 E1].
      destruct (topics_spec (log_topics l) _ H1) as [H2 E2].
      destruct (IH _ H2) as [H3 E3]. split; [done|]. intros k.
      rewrite E3, E2. unfold has_bit at 1. rewrite E1, entry_bits_testbit. split.
      + intros [(l' & e & i & Hin & He & Hi & ->)|[(t & i & Ht & Hi & ->)|[(i & Hi & ->)|?]]];
          [left|left|left|by right].
        * exists l', e, i. split; [by right|done].
        * exists l, (to_be_bytes32 t), i. split; [by left|]. split; [right; eauto|done].
        * exists l, (to_be_bytes20 (log_address l)), i. split; [by left|]. split; [by left|done].
      + intros [(l' & e & i & [->|Hin] & He & Hi & ->)|?]; [| |by right; right; right].
        * destruct He as [->|(t & Ht & ->)]; right; [right; left|left]; eauto.
        * left. eauto 10.
  Qed.

  (** C23: the bloom is 256 bytes long and its set bits are exactly the three
      positions of the address and of every topic of every log. *)
  Theorem C23_exact_bits logs :
    length (logs_bloom cr logs) = 256%nat /\
    forall k, has_bit (logs_bloom cr logs) k <->
      exists l entry i, In l logs /\ entry_of l entry /\ i < 3 /\ k = position entry i.
  Proof.
    destruct (bloom_fold_spec logs (zeros 256)) as [H1 H2].
    { unfold zeros. by rewrite repeat_length. }
    split; [done|]. intros k. unfold logs_bloom. rewrite H2. split; [|by left].
    intros [?|Hz]; [done|]. unfold has_bit in Hz. by rewrite from_be_zeros, N.bits_0 in Hz.
  Qed.

  (** No false negatives: all three bits of everything logged are set. *)
  Corollary C23_no_false_negatives logs l entry i :
    In l logs -> entry_of l entry -> i < 3 ->
    has_bit (logs_bloom cr logs) (position entry i).
  Proof. intros. apply C23_exact_bits. eauto 10. Qed.

  Lemma bloom_ext logs logs' :
    (forall k, has_bit (logs_bloom cr logs) k <-> has_bit (logs_bloom cr logs') k) ->
    logs_bloom cr logs = logs_bloom cr logs'.
  Proof.
    intros H. apply from_be_inj.
    - by rewrite (proj1 (C23_exact_bits logs)), (proj1 (C23_exact_bits logs')).
    - apply N.bits_inj. intros k. apply eq_true_iff_eq. apply H.
  Qed.

  (** The order (and multiplicity) of the logs does not matter. *)
  Theorem C23_order_independent logs logs' :
    (forall l, In l logs <-> In l logs') -> logs_bloom cr logs = logs_bloom cr logs'.
  Proof.
    intros H. apply bloom_ext. intros k. rewrite !(proj2 (C23_exact_bits _)).
    split; intros (l & e & i & Hl & R); exists l, e, i; (split; [by apply H|done]).
  Qed.

  (** The bloom of a concatenation is the bitwise or. *)
  Theorem C23_concatenation a b :
    from_be_bytes (logs_bloom cr (a ++ b))
    = N.lor (from_be_bytes (logs_bloom cr a)) (from_be_bytes (logs_bloom cr b)).
  Proof.
    apply N.bits_inj. intros k. apply eq_true_iff_eq. rewrite N.lor_spec, orb_true_iff.
    change (has_bit (logs_bloom cr (a ++ b)) k <->
      has_bit (logs_bloom cr a) k \/ has_bit (logs_bloom cr b) k).
    rewrite !(proj2 (C23_exact_bits _)). split.
    - intros (l & e & i & [Hl|Hl]%in_app_or & R); [left|right]; exists l, e, i; done.
    - intros [(l & e & i & Hl & R)|(l & e & i & Hl & R)]; exists l, e, i;
        (split; [apply in_or_app; auto|done]).
  Qed.
End C23.

(** Non-vacuity: a hash that gives different positions to different entries. *)
Example C23_nonvacuous :
  let a1 := N.shiftl 0x0123456789abcdef 96 in
  let a2 := N.shiftl 0x0722010203040506 96 in
  let t1 := N.shiftl 0x0523010203040506 192 in
  let logs := [Log a1 [t1; 0x22] []; Log a2 [] [Byte.x01]] in
  let cr := toy_crypto in
  has_bit (logs_bloom cr logs) (position cr (to_be_bytes20 a2) 0) /\
  ~ has_bit (logs_bloom cr [Log a1 [] []]) (position cr (to_be_bytes32 t1) 0) /\
  logs_bloom cr logs <> logs_bloom cr [].
Proof. vm_compute. repeat split; discriminate. Qed.

Definition PropBloom_theorems := (C23_exact_bits, C23_no_false_negatives,
  C23_order_independent, C23_concatenation).
Print Assumptions PropBloom_theorems.
