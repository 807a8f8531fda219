(** * PropPow: headers of the proof-of-work forks (C63) *)
From Coq Require Import ZifyBool ZifyN ZifyNat.
From Verif Require Import Base PrecompileSpec State Rlp RlpProofs Vm StateSpec StateProofs PropTx PropBlocks Transactions
  NumericProofs Trie Blocks Requests Fork ForkProofs PropFees PropChain PropHeader Ethash PropEthash Pow PropDifficulty.
Ltac Zify.zify_post_hook ::= idtac.

(** ** Vocabulary *)

(** The gas limit of a block after a parent *)
Definition limit_after (p h : pow_header) : Prop :=
  5000 <= ph_gas_limit h /\
  ph_gas_limit h < ph_gas_limit p + ph_gas_limit p / 1024 /\
  ph_gas_limit p < ph_gas_limit h + ph_gas_limit p / 1024.
(** The base fee after a parent with base fee [parent_fee] *)
Definition fee_after (p : pow_header) (parent_fee : N) : N :=
  let target := ph_gas_limit p / 2 in
  if ph_gas_used p <=? target
  then parent_fee - parent_fee * (target - ph_gas_used p) / (8 * target)
  else parent_fee + N.max 1 (parent_fee * (ph_gas_used p - target) / (8 * target)).
(** The first block of London has the initial base fee, and its gas limit is
    not compared with that of the parent. *)
Definition gas_rules (f : pow_fork) (p h : pow_header) : Prop :=
  if pf_base_fee f then
    (pf_london_block f = Some (ph_number h) /\ ph_base_fee_per_gas h = Some 1000000000) \/
    (pf_london_block f <> Some (ph_number h) /\ limit_after p h /\
     exists parent_fee, ph_base_fee_per_gas p = Some parent_fee /\
       ph_base_fee_per_gas h = Some (fee_after p parent_fee))
  else limit_after p h.

Definition dao_hard_fork : bytes :=
  map byte_of_N [100; 97; 111; 45; 104; 97; 114; 100; 45; 102; 111; 114; 107].
Definition dao_rule (f : pow_fork) (h : pow_header) : Prop :=
  forall n, pf_dao_block f = Some n -> n <= ph_number h < n + 10 -> ph_extra_data h = dao_hard_fork.

(** The numbers of the blocks of a chain are consecutive. *)
Definition consecutive {tx} (blocks : list (pow_block tx)) : Prop :=
  forall i b c, nth_error blocks i = Some b -> nth_error blocks (S i) = Some c ->
    ph_number (pb_header c) = ph_number (pb_header b) + 1.

(** The fields of a header in the order of the Yellow Paper, and the base fee
    of EIP-1559 at the end *)
Definition listed (h : pow_header) : rlp :=
  RList ([RBytes (ph_parent_hash h); RBytes (ph_ommers_hash h); RAddress (ph_coinbase h);
    RBytes (ph_state_root h); RBytes (ph_transactions_root h); RBytes (ph_receipt_root h);
    RBytes (ph_bloom h); RUint (ph_difficulty h); RUint (ph_number h); RUint (ph_gas_limit h);
    RUint (ph_gas_used h); RUint (ph_timestamp h); RBytes (ph_extra_data h);
    RBytes (ph_mix_digest h); RBytes (ph_nonce h)] ++
    match ph_base_fee_per_gas h with Some fee => [RUint fee] | None => [] end).
Lemma listed_eq h : listed h = pow_header_rlp h.
Proof. reflexivity. Qed.

(** The digest and the result of Ethash for block number [n] *)
Definition ethash (k256 k512 : bytes -> bytes) (seed : bytes) (n : N) (hash nonce digest result : bytes)
  : Prop :=
  exists q R cache p dataset,
    largest_prime_below (262144 + 2048 * (n / 30000)) q /\
    cache_rows k512 seed q R /\
    lenN cache = q /\ (forall i, i < q -> words_of (R 3 i) 16 (row cache i)) /\
    largest_prime_below (8388608 + 65536 * (n / 30000)) p /\
    (forall i, i < 2 * p -> item_of k512 cache i (dataset i)) /\
    hashimoto_of k256 k512 hash nonce p dataset digest result.

(** ** Ethash has one value *)
Lemma byte_list_ext (x y : bytes) n : lenN x = n -> lenN y = n ->
  (forall k, k < n -> byte_at x k = byte_at y k) -> x = y.
Proof.
  intros Hx Hy H. apply (nth_ext _ _ Byte.x00 Byte.x00); [unfold lenN in *; lia|].
  intros k Hk. specialize (H (N.of_nat k)). unfold byte_at in H. rewrite Nat2N.id in H.
  destruct (nth_error x k) as [a|] eqn:Ea.
  2:{ apply nth_error_None in Ea. lia. }
  destruct (nth_error y k) as [b|] eqn:Eb.
  2:{ apply nth_error_None in Eb. unfold lenN in *. lia. }
  rewrite (nth_error_nth _ _ _ Ea), (nth_error_nth _ _ _ Eb). apply byte_to_N_inj, H.
  unfold lenN in *. lia.
Qed.
Lemma xor_of_unique x y z z' : xor_of x y z -> xor_of x y z' -> z = z'.
Proof.
  intros [H1 H2] [H3 H4]. apply (byte_list_ext _ _ 64); [done..|]. intros k Hk.
  by rewrite H2, H4.
Qed.
Lemma cache_rows_unique k512 seed q R R' : 0 < q ->
  cache_rows k512 seed q R -> cache_rows k512 seed q R' ->
  forall r, r <= 3 -> forall i, i < q -> R r i = R' r i.
Proof.
  intros Hq (A1 & A2 & A3) (B1 & B2 & B3). induction r as [|r IH] using N.peano_ind; intros Hr.
  - induction i as [|i IHi] using N.peano_ind; intros Hi; [congruence|].
    rewrite <- N.add_1_r, A2, B2, IHi by lia. done.
  - specialize (IH ltac:(lia)). rewrite <- N.add_1_r.
    intros i. induction i as [i IHi] using (well_founded_ind N.lt_wf_0). intros Hi.
    destruct (A3 r i) as (z & Hz & ->); [lia..|]. destruct (B3 r i) as (z' & Hz' & ->); [lia..|].
    f_equal. revert Hz Hz'. rewrite (IH i Hi).
    assert (word32 (R' r i) 0 mod q < q) as Hj by (apply N.mod_lt; lia).
    revert Hj. generalize (word32 (R' r i) 0 mod q) as j. intros j Hj.
    assert ((if i =? 0 then R r (q - 1) else R (r + 1) (i - 1))
      = (if i =? 0 then R' r (q - 1) else R' (r + 1) (i - 1))) as ->.
    { destruct (N.eqb_spec i 0); [apply IH; lia|apply IHi; lia]. }
    assert ((if j <? i then R (r + 1) j else R r j) = (if j <? i then R' (r + 1) j else R' r j)) as ->.
    { destruct (N.ltb_spec j i); [apply IHi; lia|apply IH; lia]. }
    apply xor_of_unique.
Qed.
Lemma largest_prime_unique b p q : largest_prime_below b p -> largest_prime_below b q -> p = q.
Proof. intros (A1 & A2 & A3) (B1 & B2 & B3). specialize (A3 q B1 B2). specialize (B3 p A1 A2). lia. Qed.
Lemma word_list_ext (x y : list N) n : lenN x = n -> lenN y = n ->
  (forall k, k < n -> word x k = word y k) -> x = y.
Proof.
  intros Hx Hy H. apply (nth_ext _ _ 0 0); [unfold lenN in *; lia|].
  intros k Hk. specialize (H (N.of_nat k)). unfold word in H. rewrite Nat2N.id in H. apply H.
  unfold lenN in *. lia.
Qed.
Lemma words_of_bytes_unique b b' n l : lenN b = 4 * n -> lenN b' = 4 * n ->
  words_of b n l -> words_of b' n l -> b = b'.
Proof.
  intros Hb Hb' H H'. pose proof (le_words b n Hb) as W. pose proof (le_words b' n Hb') as W'.
  destruct (C60_words b []) as [E _]. destruct (C60_words b' []) as [E' _].
  rewrite <- E, <- E'.
  - f_equal. transitivity l; [eapply words_unique; done|]. eapply words_unique; done.
  - rewrite Hb', N.mul_comm. apply N.mod_mul. done.
  - rewrite Hb, N.mul_comm. apply N.mod_mul. done.
Qed.
Lemma hashimoto_of_unique k256 k512 hash nonce p (D D' : N -> bytes) digest result digest' result' :
  0 < p -> (forall i, i < 2 * p -> D i = D' i) ->
  hashimoto_of k256 k512 hash nonce p D digest result ->
  hashimoto_of k256 k512 hash nonce p D' digest' result' ->
  digest = digest' /\ result = result'.
Proof.
  intros Hp HD (m & A1 & A2 & A3 & A4 & A5 & ->) (m' & B1 & B2 & B3 & B4 & B5 & ->).
  set (s := k512 (hash ++ rev nonce)) in *.
  assert (Hm : forall i, i <= 64 -> m i = m' i).
  { induction i as [|i IH] using N.peano_ind; intros Hi.
    - apply (word_list_ext _ _ 32); [done..|]. intros k Hk. by rewrite A2, B2.
    - rewrite <- N.add_1_r. destruct (A3 i) as [C1 C2]; [lia|]. destruct (B3 i) as [D1 D2]; [lia|].
      apply (word_list_ext _ _ 32); [done..|]. intros k Hk. rewrite C2, D2, IH by lia.
      do 2 f_equal. apply HD.
      assert (k / 16 < 2) by (apply N.div_lt_upper_bound; lia).
      assert (FNV (N.lxor i (word32 s 0)) (word (m' i) (i mod 32)) mod p < p) by (apply N.mod_lt; lia).
      lia. }
  assert (digest = digest') as ->; [|done].
  pose proof (le_words digest 8 A4) as W. pose proof (le_words digest' 8 B4) as W'.
  apply (words_of_bytes_unique _ _ 8 (le_bytes_to_uint32_sequence digest)); [done..|].
  destruct W as [W1 W2]. split; [done|]. intros k Hk. rewrite W2, A5, B5, Hm by lia. done.
Qed.

Theorem C63_ethash_unique C k512 n hash nonce digest result digest' result' :
  digests64 k512 -> n < 1962270000 ->
  ethash (keccak256 C) k512 (generate_seed C n) n hash nonce digest result ->
  ethash (keccak256 C) k512 (generate_seed C n) n hash nonce digest' result' ->
  digest = digest' /\ result = result'.
Proof.
  intros H64 Hn (q & R & cache & p & D & A1 & A2 & A3 & A4 & A5 & A6 & A7)
    (q' & R' & cache' & p' & D' & B1 & B2 & B3 & B4 & B5 & B6 & B7).
  pose proof (largest_prime_unique _ _ _ A1 B1) as <-.
  pose proof (largest_prime_unique _ _ _ A5 B5) as <-.
  destruct (cache_spec C k512 H64 n) as (q1 & R1 & cache1 & Hs1 & Hq32 & Hq2 & Hcache & Ht & HR1 & HW1).
  { lia. }
  assert (q1 = q) as ->.
  { destruct (C60_cache_size n) as (q2 & E & Hl). rewrite Hs1 in E.
    apply (largest_prime_unique _ q2) in A1; [|done]. subst q2. clear -E.
    injection E as E. lia. }
  assert (Hc : forall R2 cache2, cache_rows k512 (generate_seed C n) q R2 -> lenN cache2 = q ->
    (forall i, i < q -> words_of (R2 3 i) 16 (row cache2 i)) -> cache2 = cache1).
  { intros R2 cache2 C1 C2 C3. apply (nth_ext _ _ [] []).
    { destruct Ht as [Ht _]. unfold lenN in *. lia. }
    intros k Hk. specialize (C3 (N.of_nat k)). specialize (HW1 (N.of_nat k)).
    unfold row in *. rewrite Nat2N.id in *.
    assert (Hkq : N.of_nat k < q) by (unfold lenN in C2; lia).
    specialize (C3 Hkq). specialize (HW1 Hkq).
    assert (H0q : 0 < q) by lia.
    rewrite (cache_rows_unique _ _ _ _ _ H0q C1 HR1 3) in C3 by lia.
    by eapply words_unique. }
  rewrite (Hc R cache A2 A3 A4) in *. rewrite (Hc R' cache' B2 B3 B4) in *.
  destruct (dataset_rows n Hn) as (p1 & _ & Hp & Hp1).
  pose proof (largest_prime_unique _ _ _ A5 Hp1) as <-.
  eapply hashimoto_of_unique; [| |exact A7|exact B7]; [lia|].
  intros i Hi. assert (i < 2 ^ 512).
  { apply (N.lt_trans _ (2 * 2 ^ 32)); [lia|]. done. }
  destruct Ht as [Ht1 Ht2]. assert (Ht : table (lenN cache1) cache1) by done.
  destruct (item_spec k512 H64 q cache1 i) as (d & E & _); [done|lia|done|].
  rewrite (item_unique k512 H64 cache1 i (D i) d), (item_unique k512 H64 cache1 i (D' i) d);
    auto; lia.
Qed.

Section header.
  Context (cr : crypto) (k512 : bytes -> bytes) (f : pow_fork) {tx : Type}.

  Definition has_ommers (h : pow_header) : bool :=
    negb (bytes_eqb (ph_ommers_hash h) (keccak256 cr (encode (RList [])))).

  (** A header that may follow [p], before the proof of work *)
  Record pow_child (p h : pow_header) : Prop := {
    pch_number : ph_number h = ph_number p + 1;
    pch_parent : ph_parent_hash h = keccak256 cr (encode (listed p));
    pch_time : ph_timestamp p < ph_timestamp h;
    pch_gas : ph_gas_used h <= ph_gas_limit h;
    pch_rules : gas_rules f p h;
    pch_extra : lenN (ph_extra_data h) <= 32;
    pch_difficulty : Z.of_N (ph_difficulty h) =
      difficulty_of (pf_rule f) (has_ommers p) (Z.of_N (ph_number h)) (Z.of_N (ph_timestamp h))
        (Z.of_N (ph_timestamp p)) (Z.of_N (ph_difficulty p));
    pch_dao : dao_rule f h;
  }.

  (** The header without mix digest and nonce *)
  Definition unsealed (h : pow_header) : rlp :=
    RList (map snd (List.filter (fun x => negb ((fst x =? 13) || (fst x =? 14)))
      (combine (range 0 16) (match listed h with RList l => l | _ => [] end)))).
  (** The proof of work: digest and result are those of Ethash, and the
      result times the difficulty does not exceed 2^256. *)
  Definition sealed (h : pow_header) : Prop :=
    exists result,
      ethash (keccak256 cr) k512 (generate_seed cr (ph_number h)) (ph_number h)
        (keccak256 cr (encode (unsealed h))) (ph_nonce h) (ph_mix_digest h) result /\
      from_be_bytes result * ph_difficulty h <= 2 ^ 256.

  Lemma unsealed_eq h :
    keccak256 cr (encode (unsealed h)) = generate_header_hash_for_pow cr h.
  Proof using.
    unfold generate_header_hash_for_pow, unsealed, listed, pow_fee.
    destruct (ph_base_fee_per_gas h); reflexivity.
  Qed.

  (** Ethash has exactly one value, which the code computes, and the code
      accepts if it is in the header and small enough. *)
  Theorem C63_proof_of_work h :
    digests64 k512 -> ph_number h < 1962270000 -> 0 < ph_difficulty h ->
    exists digest result,
      ethash (keccak256 cr) k512 (generate_seed cr (ph_number h)) (ph_number h)
        (keccak256 cr (encode (unsealed h))) (ph_nonce h) digest result /\
      validate_proof_of_work cr k512 h =
        if bytes_eqb digest (ph_mix_digest h)
           && (from_be_bytes result * ph_difficulty h <=? 2 ^ 256)
        then Done tt else Fail FInvalidBlock.
  Proof using.
    intros H64 Hn Hd. rewrite unsealed_eq. set (hash := generate_header_hash_for_pow cr h).
    destruct (C61_light cr k512 (ph_number h) hash (ph_nonce h) H64 Hn)
      as (p & cache & dataset & digest & result & Hp & Hsize & Hcache & _ & _ & Hitems & _ & Hlight & Hof).
    destruct (C61_cache cr k512 (ph_number h) H64) as (q & R & cache' & Hq & Hcache' & Hlen & Hrows & Hwords).
    { lia. }
    assert (cache' = cache) as -> by congruence.
    exists digest, result. split.
    { exists q, R, cache, p, (row dataset). done. }
    unfold validate_proof_of_work. fold hash. rewrite Hcache, Hsize. cbn [obind]. rewrite Hlight.
    cbn [obind]. destruct (bytes_eqb digest (ph_mix_digest h)); [|done]. cbn [check obind andb].
    unfold udiv. destruct (N.eqb_spec (ph_difficulty h) 0) as [|Hz]; [lia|]. cbn [obind].
    assert ((from_be_bytes result <=? 2 ^ 256 / ph_difficulty h)
            = (from_be_bytes result * ph_difficulty h <=? 2 ^ 256)) as ->.
    { apply eq_true_iff_eq. rewrite !N.leb_le. rewrite N.mul_comm. generalize (2 ^ 256) as x. intros x.
      clear -Hz. split.
      - intros H. pose proof (N.mul_div_le x (ph_difficulty h) Hz). nia.
      - intros H. by apply N.div_le_lower_bound. }
    by destruct (_ <=? _).
  Qed.

  (** ** The parent *)
  Implicit Types (chain : pow_chain tx).

  Lemma consecutive_nth (l : list (pow_block tx)) b0 i b : consecutive l -> head l = Some b0 ->
    nth_error l i = Some b -> ph_number (pb_header b) = ph_number (pb_header b0) + N.of_nat i.
  Proof using.
    intros Hc Hh. revert b. induction i as [|i IH]; intros b Hb.
    - destruct l; [done|]. cbn in *. assert (p = b) by congruence. assert (p = b0) by congruence. subst. lia.
    - destruct (nth_error l i) as [c|] eqn:E.
      + rewrite (Hc i c b E Hb), (IH c eq_refl). lia.
      + apply nth_error_None in E. assert (i < length l)%nat; [|lia].
        assert (nth_error l (S i) <> None) as H by congruence. apply nth_error_Some in H. lia.
  Qed.

  (** The parent is looked up by its number. *)
  Lemma find_parent_spec chain h : consecutive (pc_blocks chain) -> pc_blocks chain <> [] ->
    (exists i b, nth_error (pc_blocks chain) i = Some b /\
       ph_number h = ph_number (pb_header b) + 1 /\ find_parent chain h = Done (pb_header b)) \/
    ((forall b, In b (pc_blocks chain) -> ph_number h <> ph_number (pb_header b) + 1) /\
     find_parent chain h = Fail FInvalidBlock).
  Proof using.
    intros Hc Hne. unfold find_parent.
    destruct (pc_blocks chain) as [|b0 l] eqn:El; [done|]. clear Hne.
    assert (Hall : forall i b, nth_error (b0 :: l) i = Some b ->
      ph_number (pb_header b) = ph_number (pb_header b0) + N.of_nat i).
    { intros i b. by apply consecutive_nth. }
    assert (Hin : forall b, In b (b0 :: l) -> exists i, nth_error (b0 :: l) i = Some b
      /\ (i < length (b0 :: l))%nat).
    { intros b [i Hi]%In_nth_error. exists i. split; [done|]. apply nth_error_Some. congruence. }
    destruct (last (b0 :: l)) as [bl|] eqn:Elast.
    2:{ by apply last_None in Elast. }
    assert (Hbl : ph_number (pb_header bl) = ph_number (pb_header b0) + N.of_nat (length l)).
    { apply Hall. rewrite last_lookup in Elast. cbn [length pred] in Elast.
      rewrite <- Elast. clear. revert b0. induction l as [|c l IH]; intros b0; [done|]. apply (IH c). }
    cbn [head of_option obind].
    destruct (N.leb_spec 1 (ph_number h)) as [H1|H1]; cbn [check obind].
    2:{ right. split; [intros; lia|done]. }
    destruct (N.leb_spec (ph_number (pb_header b0)) (ph_number h - 1)) as [H2|H2]; cbn [check obind].
    2:{ right. split; [|done]. intros b (i & Hi & _)%Hin. apply Hall in Hi. lia. }
    destruct (N.leb_spec (ph_number h - 1) (ph_number (pb_header bl))) as [H3|H3]; cbn [check obind].
    2:{ right. split; [|done]. intros b (i & Hi & Hlen)%Hin. apply Hall in Hi. cbn [length] in Hlen. lia. }
    left. set (i := N.to_nat (ph_number h - 1 - ph_number (pb_header b0))).
    destruct (nth_error (b0 :: l) i) as [b|] eqn:Eb.
    - exists i, b. split; [done|]. split; [apply Hall in Eb; lia|].
      unfold index. rewrite nthN_nth_error. fold i. by rewrite Eb.
    - apply nth_error_None in Eb. cbn [length] in Eb. lia.
  Qed.

  (** [validate_header] without the proof of work *)
  Definition header_checks chain (h : pow_header) : outcome unit :=
    parent <~ find_parent chain h ;;
    _ <~ check (ph_gas_used h <=? ph_gas_limit h) ;;
    _ <~ validate_fee f h parent ;;
    let parent_has_ommers := negb (bytes_eqb (ph_ommers_hash parent) (EMPTY_OMMER_HASH cr)) in
    _ <~ check (ph_timestamp parent <? ph_timestamp h) ;;
    _ <~ check (ph_number h =? ph_number parent + 1) ;;
    _ <~ check (lenN (ph_extra_data h) <=? 32) ;;
    block_difficulty <~ calculate_block_difficulty (pf_rule f) (ph_number h) (ph_timestamp h)
      (ph_timestamp parent) (ph_difficulty parent) parent_has_ommers ;;
    _ <~ check (ph_difficulty h =? block_difficulty) ;;
    _ <~ check (bytes_eqb (ph_parent_hash h) (pow_hash cr parent)) ;;
    validate_dao f h.
  Lemma obind_assoc {A B C} (o : outcome A) (g : A -> outcome B) (k : B -> outcome C) :
    obind (obind o g) k = obind o (fun a => obind (g a) k).
  Proof using. by destruct o. Qed.
  Lemma obind_cong {A B} (o : outcome A) (g k : A -> outcome B) : (forall a, g a = k a) ->
    obind o g = obind o k.
  Proof using. intros H. destruct o; cbn; [apply H|done]. Qed.
  Lemma validate_header_split chain h : validate_header cr k512 f chain h =
    (_ <~ header_checks chain h ;; validate_proof_of_work cr k512 h).
  Proof using.
    unfold validate_header, header_checks. repeat (rewrite obind_assoc; apply obind_cong; intros). done.
  Qed.

  Lemma limit_check p h :
    check_gas_limit (ph_gas_limit h) (ph_gas_limit p) = true <-> limit_after p h.
  Proof using. unfold limit_after. apply check_limit_spec. Qed.

  Lemma fee_spec p h :
    (pf_base_fee f = true -> ph_base_fee_per_gas h <> None /\
       (pf_london_block f <> Some (ph_number h) -> ph_base_fee_per_gas p <> None)) ->
    (gas_rules f p h /\ validate_fee f h p = Done tt) \/
    (~ gas_rules f p h /\ validate_fee f h p = Fail FInvalidBlock).
  Proof using.
    intros Hfee. unfold gas_rules, validate_fee, base_fee_of. destruct (pf_base_fee f) eqn:Ef.
    2:{ destruct (check_gas_limit _ _) eqn:E.
        - left. split; [by apply limit_check|done].
        - right. split; [|done]. intros H%limit_check. congruence. }
    destruct (Hfee eq_refl) as [Hh Hp].
    destruct (ph_base_fee_per_gas h) as [fee|] eqn:Efee; [|done]. cbn [of_option obind].
    case_bool_decide as HL.
    - cbn [obind]. change INITIAL_BASE_FEE with 1000000000.
      destruct (N.eqb_spec 1000000000 fee) as [E|E]; [subst fee|]; [left|right]; (split; [|done]); [by left|].
      intros [[_ [= H]]|[H _]]; congruence.
    - specialize (Hp HL). destruct (ph_base_fee_per_gas p) as [pfee|] eqn:Epfee; [|done].
      cbn [of_option obind].
      destruct (check_gas_limit (ph_gas_limit h) (ph_gas_limit p)) eqn:Ec.
      2:{ right. split.
          - intros [[H _]|(_ & H & _)]; [done|]. apply limit_check in H. congruence.
          - unfold calculate_base_fee_per_gas. by rewrite Ec. }
      destruct (C31_total _ _ (ph_gas_used p) pfee Ec) as (x & Hx). rewrite Hx. cbn [obind].
      apply C31_value in Hx as [_ Hx].
      assert (x = fee_after p pfee) as ->.
      { unfold fee_after. cbv zeta in *. destruct (_ <=? _); exact Hx. }
      destruct (N.eqb_spec (fee_after p pfee) fee) as [E|E]; [left|right]; (split; [|done]).
      + right. split; [done|]. split; [by apply limit_check|]. exists pfee. subst fee. done.
      + intros [[H _]|(_ & _ & y & [= <-] & [= H])]; [done|]. congruence.
  Qed.

  Lemma dao_spec h :
    (dao_rule f h /\ validate_dao f h = Done tt) \/
    (~ dao_rule f h /\ validate_dao f h = Fail FInvalidBlock).
  Proof using.
    unfold dao_rule, validate_dao. change dao_hard_fork with DAO_EXTRA.
    destruct (pf_dao_block f) as [n|]; [|left; split; [done|done]].
    destruct ((n <=? ph_number h) && (ph_number h <? n + 10)) eqn:E.
    - apply andb_true_iff in E as [E1%N.leb_le E2%N.ltb_lt].
      destruct (bytes_eqb (ph_extra_data h) DAO_EXTRA) eqn:Eb.
      + apply bytes_eqb_eq in Eb. left. done.
      + right. split; [|done]. intros H. specialize (H n eq_refl (conj E1 E2)).
        apply bytes_eqb_eq in H. congruence.
    - left. split; [|done]. intros m [= <-] Hm. exfalso.
      apply andb_false_iff in E as [E%N.leb_gt|E%N.ltb_ge]; lia.
  Qed.

  (** The conditions under which nothing but InvalidBlock is raised: the
      header, and its parent, have a base fee when the fork asks for it, and
      times are not at the end of U256. *)
  Definition well_typed chain (h : pow_header) : Prop :=
    (pf_base_fee f = true -> ph_base_fee_per_gas h <> None) /\
    forall b, In b (pc_blocks chain) -> ph_number h = ph_number (pb_header b) + 1 ->
      (pf_base_fee f = true -> pf_london_block f <> Some (ph_number h) ->
       ph_base_fee_per_gas (pb_header b) <> None) /\
      ph_timestamp (pb_header b) + 13 < 2 ^ 256.

  Lemma checks_spec chain h : consecutive (pc_blocks chain) -> pc_blocks chain <> [] ->
    well_typed chain h ->
    ((exists b, In b (pc_blocks chain) /\ pow_child (pb_header b) h) /\
     header_checks chain h = Done tt) \/
    (~ (exists b, In b (pc_blocks chain) /\ pow_child (pb_header b) h) /\
     header_checks chain h = Fail FInvalidBlock).
  Proof using.
    intros Hc Hne [Hth Htb]. unfold header_checks.
    destruct (find_parent_spec chain h Hc Hne) as [(i & b & Hi & Hnum & ->)|[Hno ->]]; cbn [obind].
    2:{ right. split; [|done]. intros (b & Hin & []). by apply (Hno b). }
    pose proof (nth_error_In _ _ Hi) as Hin. destruct (Htb b Hin Hnum) as [Hpb Htime].
    set (p := pb_header b) in *.
    assert (Hex : (exists b, In b (pc_blocks chain) /\ pow_child (pb_header b) h) <-> pow_child p h).
    { split; [|intros; exists b; done]. intros (c & Hic & Hch).
      destruct (pc_blocks chain) as [|b0 l] eqn:El; [done|].
      destruct (In_nth_error _ _ Hic) as [j Hj].
      pose proof (consecutive_nth _ b0 i b Hc eq_refl Hi) as E1.
      pose proof (consecutive_nth _ b0 j c Hc eq_refl Hj) as E2.
      destruct Hch as [E3]. assert (i = j) as -> by (unfold p in Hnum; lia).
      assert (b = c) as -> by congruence. by constructor. }
    rewrite Hex. clear Hex.
    assert (Hchk : forall (P : Prop) (b : bool) (k : outcome unit) (R : Prop), (b = true <-> P) ->
      (R -> P) -> (P -> R /\ k = Done tt \/ ~ R /\ k = Fail FInvalidBlock) ->
      R /\ (_ <~ check b ;; k) = Done tt \/ ~ R /\ (_ <~ check b ;; k) = Fail FInvalidBlock).
    { intros P b' k R Hb HR Hk. destruct b'; cbn [check obind].
      - apply Hk. by apply Hb.
      - right. split; [|done]. intros HR'%HR%Hb. done. }
    eapply (Hchk (ph_gas_used h <= ph_gas_limit h)); [apply N.leb_le|by intros []|intros P1].
    destruct (fee_spec p h) as [[P2 ->]|[P2 ->]]; cbn [obind].
    { intros E. split; [by apply Hth|by apply Hpb]. }
    2:{ right. split; [|done]. by intros []. }
    eapply (Hchk (ph_timestamp p < ph_timestamp h)); [apply N.ltb_lt|by intros []|intros P3].
    eapply (Hchk (ph_number h = ph_number p + 1)); [apply N.eqb_eq|by intros []|intros P4].
    eapply (Hchk (lenN (ph_extra_data h) <= 32)); [apply N.leb_le|by intros []|intros P5].
    destruct (C62_formula (pf_rule f) (has_ommers p) (ph_number h) (ph_timestamp h) (ph_timestamp p)
      (ph_difficulty p) P3 Htime) as (d & Hd & HdZ).
    cbv zeta. change (EMPTY_OMMER_HASH cr) with (keccak256 cr (encode (RList []))).
    fold (has_ommers p). rewrite Hd. cbn [obind].
    eapply (Hchk (ph_difficulty h = d)); [apply N.eqb_eq|intros []; lia|intros P6].
    eapply (Hchk (ph_parent_hash h = pow_hash cr p)); [apply bytes_eqb_eq|by intros []|intros P7].
    destruct (dao_spec h) as [[P8 ->]|[P8 ->]].
    - left. split; [|done]. constructor; try done. subst d. lia.
    - right. split; [|done]. by intros [].
  Qed.
  Lemma child_difficulty p h : pow_child p h -> 131072 <= ph_difficulty h.
  Proof using. intros [_ _ _ _ _ _ H _]. unfold difficulty_of in H. lia. Qed.

  (** A header is accepted exactly if it may follow a block of the chain and
      has a proof of work; otherwise the block is invalid, and nothing else
      happens. *)
  Definition acceptable chain (h : pow_header) : Prop :=
    (exists b, In b (pc_blocks chain) /\ pow_child (pb_header b) h) /\ sealed h.
  Theorem C63_header chain h :
    digests64 k512 -> ph_number h < 1962270000 ->
    consecutive (pc_blocks chain) -> pc_blocks chain <> [] -> well_typed chain h ->
    (acceptable chain h /\ validate_header cr k512 f chain h = Done tt) \/
    (~ acceptable chain h /\ validate_header cr k512 f chain h = Fail FInvalidBlock).
  Proof using.
    intros H64 Hn Hc Hne Ht. rewrite validate_header_split. unfold acceptable.
    destruct (checks_spec chain h Hc Hne Ht) as [[Hch ->]|[Hch ->]]; cbn [obind].
    2:{ right. split; [|done]. by intros [H _]. }
    assert (Hd : 131072 <= ph_difficulty h).
    { destruct Hch as (b & _ & Hch). by eapply child_difficulty. }
    destruct (C63_proof_of_work h H64 Hn) as (digest & result & He & ->); [lia|].
    destruct (bytes_eqb digest (ph_mix_digest h)) eqn:E1; cbn [andb].
    - apply bytes_eqb_eq in E1. subst digest.
      destruct (N.leb_spec (from_be_bytes result * ph_difficulty h) (2 ^ 256)) as [Hle|Hlt].
      + left. split; [|done]. split; [done|]. exists result. done.
      + right. split; [|done]. intros [_ (result' & He' & Hle)].
        destruct (C63_ethash_unique _ _ _ _ _ _ _ _ _ H64 Hn He He') as [_ ->]. lia.
    - right. split; [|done]. intros [_ (result' & He' & _)].
      destruct (C63_ethash_unique _ _ _ _ _ _ _ _ _ H64 Hn He He') as [-> _].
      assert (bytes_eqb (ph_mix_digest h) (ph_mix_digest h) = true) by (by apply bytes_eqb_eq). congruence.
  Qed.

  (** The hash the proof of work is for determines the header up to its mix
      digest and nonce, or is a collision. *)
  Theorem C63_pow_hash h1 h2 :
    ph_coinbase h1 < 2 ^ 160 -> ph_coinbase h2 < 2 ^ 160 ->
    lenN (encode (unsealed h1)) < 2 ^ 64 -> lenN (encode (unsealed h2)) < 2 ^ 64 ->
    generate_header_hash_for_pow cr h1 = generate_header_hash_for_pow cr h2 ->
    (exists m n, h2 = PowHeader (ph_parent_hash h1) (ph_ommers_hash h1) (ph_coinbase h1)
       (ph_state_root h1) (ph_transactions_root h1) (ph_receipt_root h1) (ph_bloom h1)
       (ph_difficulty h1) (ph_number h1) (ph_gas_limit h1) (ph_gas_used h1) (ph_timestamp h1)
       (ph_extra_data h1) m n (ph_base_fee_per_gas h1)) \/
    (encode (unsealed h1) <> encode (unsealed h2) /\
     keccak256 cr (encode (unsealed h1)) = keccak256 cr (encode (unsealed h2))).
  Proof using.
    intros T1 T2 F1 F2 E. rewrite <- !unsealed_eq in E.
    destruct (decide (encode (unsealed h1) = encode (unsealed h2))) as [Ee|Ee]; [left|right; by split].
    apply encode_inj in Ee; [|done..].
    assert (Hu : forall h, unsealed h = RList (pow_fields h ++ pow_fee h)).
    { intros h. unfold unsealed, listed, pow_fee. destruct (ph_base_fee_per_gas h); reflexivity. }
    rewrite !Hu in Ee.
    assert (HL : forall a b, RList a = RList b -> a = b) by congruence. apply HL in Ee.
    apply app_inj_1 in Ee as [E1 E2]; [|done]. unfold pow_fields in E1.
    assert (HU : forall a b, RUint a = RUint b -> a = b).
    { intros a b H. apply (f_equal d_uint) in H. rewrite !d_uint_ok in H. congruence. }
    assert (HA : forall a b, a < 2 ^ 160 -> b < 2 ^ 160 -> RAddress a = RAddress b -> a = b).
    { intros a b Ha Hb H. apply (f_equal (d_exact 20)) in H.
      rewrite !d_address_ok in H by done. congruence. }
    assert (HC : forall (x y : rlp) l m, x :: l = y :: m -> x = y /\ l = m).
    { intros x y l m H. split; congruence. }
    assert (HB : forall a b, RBytes a = RBytes b -> a = b) by congruence.
    repeat match goal with H : _ :: _ = _ :: _ |- _ => apply HC in H as [? H] end.
    exists (ph_mix_digest h2), (ph_nonce h2).
    destruct h1 as [x0 x1 x2 x3 x4 x5 x6 x7 x8 x9 x10 x11 x12 x13 x14 x15],
      h2 as [y0 y1 y2 y3 y4 y5 y6 y7 y8 y9 y10 y11 y12 y13 y14 y15];
      cbn [ph_parent_hash ph_ommers_hash ph_coinbase ph_state_root ph_transactions_root
      ph_receipt_root ph_bloom ph_difficulty ph_number ph_gas_limit ph_gas_used ph_timestamp ph_extra_data
      ph_mix_digest ph_nonce ph_base_fee_per_gas] in *.
    unfold pow_fee in E2. cbn [ph_base_fee_per_gas] in E2.
    repeat match goal with
    | H : RBytes _ = RBytes _ |- _ => apply HB in H
    | H : RUint _ = RUint _ |- _ => apply HU in H
    | H : RAddress _ = RAddress _ |- _ => apply HA in H; [|done..]
    end. subst. f_equal.
    match goal with |- ?a = ?b => destruct a, b; cbn in E2 end; try done.
    apply HC in E2 as [E2%HU _]. by subst.
  Qed.
End header.
