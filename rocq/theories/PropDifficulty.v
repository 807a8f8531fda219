(** * PropDifficulty: the difficulty of the proof-of-work forks (C62) *)
From Coq Require Import ZifyBool ZifyN ZifyNat.
From Verif Require Import Base State Rlp Vm Transactions Trie Blocks Requests Fork Ethash Pow.
Local Open Scope Z_scope.
Ltac Zify.zify_post_hook ::= idtac.

(** ** Vocabulary: the formulas of the Yellow Paper and of EIP-2, EIP-100, EIP-649 *)

(** By how many units of 1/2048 the difficulty of the parent [age] seconds
    earlier is corrected *)
Definition correction (rule : difficulty_rule) (ommers : bool) (age : Z) : Z :=
  match rule with
  | FrontierRule => if age <? 13 then 1 else -1
  | HomesteadRule => Z.max (1 - age / 10) (-99)
  | ByzantiumRule _ => Z.max ((if ommers then 2 else 1) - age / 9) (-99)
  end.
(** The number of the block as the bomb counts *)
Definition fake_number (rule : difficulty_rule) (number : Z) : Z :=
  match rule with
  | ByzantiumRule delay => Z.max 0 (number - Z.of_N delay)
  | _ => number
  end.
(** floor(2 ^ (floor(number / 100000) - 2)) *)
Definition bomb (number : Z) : Z := 2 ^ (number / 100000) / 4.

Definition difficulty_of (rule : difficulty_rule) (ommers : bool)
    (number timestamp parent_timestamp parent_difficulty : Z) : Z :=
  Z.max 131072
    (parent_difficulty
     + parent_difficulty / 2048 * correction rule ommers (timestamp - parent_timestamp)
     + bomb (fake_number rule number)).

Lemma bomb_cases n : 0 <= n -> bomb n = if n <? 200000 then 0 else 2 ^ (n / 100000 - 2).
Proof.
  intros Hn. unfold bomb. destruct (Z.ltb_spec n 200000) as [H|H].
  - assert (n / 100000 = 0 \/ n / 100000 = 1) as [-> | ->]; [|done..].
    assert (0 <= n / 100000) by (apply Z.div_pos; lia).
    assert (n / 100000 < 2) by (apply Z.div_lt_upper_bound; lia). lia.
  - assert (2 <= n / 100000) by (apply Z.div_le_lower_bound; lia).
    replace (n / 100000) with (n / 100000 - 2 + 2) at 1 by lia.
    rewrite Z.pow_add_r by lia. change (2 ^ 2) with 4. by rewrite Z.div_mul.
Qed.
Lemma bomb_nonneg n : 0 <= n -> 0 <= bomb n.
Proof.
  intros H. rewrite bomb_cases by done. destruct (n <? 200000); [done|]. by apply Z.pow_nonneg.
Qed.
Lemma bomb_mono n m : 0 <= n <= m -> bomb n <= bomb m.
Proof.
  intros H. unfold bomb. apply Z.div_le_mono; [lia|]. apply Z.pow_le_mono_r; [lia|].
  apply Z.div_le_mono; lia.
Qed.

Lemma add_bomb_spec d n : 0 <= n -> add_bomb d (n / 100000 - 2) = d + bomb n.
Proof.
  intros Hn. rewrite bomb_cases by done. unfold add_bomb. destruct (Z.ltb_spec n 200000) as [H|H].
  - assert (n / 100000 < 2) by (apply Z.div_lt_upper_bound; lia).
    destruct (Z.leb_spec 0 (n / 100000 - 2)); lia.
  - assert (2 <= n / 100000) by (apply Z.div_le_lower_bound; lia).
    destruct (Z.leb_spec 0 (n / 100000 - 2)); lia.
Qed.
Lemma add_bomb_delayed d n : add_bomb d (n / 100000 - 2) = d + bomb (Z.max 0 n).
Proof.
  destruct (Z.le_gt_cases 0 n) as [H|H].
  - rewrite Z.max_r by done. by apply add_bomb_spec.
  - rewrite Z.max_l by lia. change (bomb 0) with 0. unfold add_bomb.
    assert (n / 100000 < 0) by (apply Z.div_lt_upper_bound; lia).
    destruct (Z.leb_spec 0 (n / 100000 - 2)); lia.
Qed.

Lemma usub_Z a b : (b <= a)%N -> usub a b = Done (a - b)%N.
Proof. intros H. unfold usub. destruct (N.ltb_spec a b); [lia|done]. Qed.
Lemma div_of_N a b : Z.of_N (a / b) = Z.of_N a / Z.of_N b.
Proof. apply N2Z.inj_div. Qed.

(** The difficulty of a block after its parent is the one of the Yellow Paper. *)
Theorem C62_formula rule ommers number timestamp parent_timestamp parent_difficulty :
  (parent_timestamp < timestamp)%N -> (parent_timestamp + 13 < 2 ^ 256)%N ->
  exists d,
    calculate_block_difficulty rule number timestamp parent_timestamp parent_difficulty ommers
      = Done d /\
    Z.of_N d = difficulty_of rule ommers (Z.of_N number) (Z.of_N timestamp)
      (Z.of_N parent_timestamp) (Z.of_N parent_difficulty).
Proof.
  intros Ht Ho.
  assert (Hf : forall x, Z.of_N (Z.to_N (Z.max x (Z.of_N MINIMUM_DIFFICULTY))) = Z.max 131072 x).
  { intros x. change (Z.of_N MINIMUM_DIFFICULTY) with 131072. rewrite Z2N.id by lia. apply Z.max_comm. }
  assert (Hsub : (parent_difficulty / 2048 <= parent_difficulty)%N).
  { apply N.div_le_upper_bound; lia. }
  unfold calculate_block_difficulty, difficulty_of. destruct rule as [| |delay].
  - unfold frontier_difficulty, u256, to_u256. change (U256_CEIL) with (2 ^ 256)%N.
    destruct (N.ltb_spec (parent_timestamp + 13) (2 ^ 256)) as [_|H]; [|lia].
    cbn [of_result obind correction fake_number].
    destruct (N.ltb_spec timestamp (parent_timestamp + 13)) as [H|H].
    + cbn [obind]. eexists. split; [reflexivity|]. rewrite Hf, add_bomb_spec by lia.
      destruct (Z.ltb_spec (Z.of_N timestamp - Z.of_N parent_timestamp) 13); [|lia].
      f_equal. rewrite N2Z.inj_add, div_of_N. change (Z.of_N 2048) with 2048. lia.
    + rewrite usub_Z by done. cbn [obind]. eexists. split; [reflexivity|].
      rewrite Hf, add_bomb_spec by lia.
      destruct (Z.ltb_spec (Z.of_N timestamp - Z.of_N parent_timestamp) 13); [lia|].
      f_equal. rewrite N2Z.inj_sub, div_of_N by done. change (Z.of_N 2048) with 2048. lia.
  - unfold homestead_difficulty. rewrite usub_Z by lia. cbn [obind correction fake_number].
    eexists. split; [reflexivity|]. rewrite Hf, add_bomb_spec by lia.
    by rewrite N2Z.inj_sub by lia.
  - unfold byzantium_difficulty. rewrite usub_Z by lia. cbn [obind correction fake_number].
    eexists. split; [reflexivity|]. rewrite Hf, add_bomb_delayed.
    by rewrite N2Z.inj_sub by lia.
Qed.

(** The frontier rule raises when the timestamp of the parent is within 13 of
    2^256; the others raise when the block is not later than its parent. *)
Theorem C62_raises rule ommers number timestamp parent_timestamp parent_difficulty :
  calculate_block_difficulty rule number timestamp parent_timestamp parent_difficulty ommers
    = Fail (FCrash OverflowError) <->
  match rule with
  | FrontierRule => (2 ^ 256 <= parent_timestamp + 13)%N
  | _ => (timestamp < parent_timestamp)%N
  end.
Proof.
  assert (Hsub : (parent_difficulty / 2048 <= parent_difficulty)%N).
  { apply N.div_le_upper_bound; lia. }
  destruct rule as [| |delay]; cbn [calculate_block_difficulty].
  - unfold frontier_difficulty, u256, to_u256. change (U256_CEIL) with (2 ^ 256)%N.
    destruct (N.ltb_spec (parent_timestamp + 13) (2 ^ 256)) as [H|H]; cbn [of_result obind].
    + destruct (_ <? _)%N; [|rewrite usub_Z by done]; cbn [obind]; split; [done|lia|done|lia].
    + done.
  - unfold homestead_difficulty, usub. destruct (N.ltb_spec timestamp parent_timestamp); cbn [obind].
    + done.
    + split; [done|lia].
  - unfold byzantium_difficulty, usub. destruct (N.ltb_spec timestamp parent_timestamp); cbn [obind].
    + done.
    + split; [done|lia].
Qed.

(** ** What follows from the formula *)
Section consequences.
  Context (rule : difficulty_rule) (number parent_timestamp parent_difficulty : N).
  Hypothesis Hparent : (parent_timestamp + 13 < 2 ^ 256)%N.
  Notation D ommers timestamp :=
    (calculate_block_difficulty rule number timestamp parent_timestamp parent_difficulty ommers).

  Lemma correction_range ommers age : 0 < age -> -99 <= correction rule ommers age <= 2.
  Proof using.
    clear Hparent. intros H. unfold correction. destruct rule.
    - destruct (_ <? _); lia.
    - assert (0 <= age / 10) by (apply Z.div_pos; lia). lia.
    - assert (0 <= age / 9) by (apply Z.div_pos; lia). destruct ommers; lia.
  Qed.
  Lemma fake_nonneg : 0 <= fake_number rule (Z.of_N number).
  Proof using. clear Hparent. destruct rule; cbn [fake_number]; lia. Qed.
  Lemma unit_pos : 0 <= Z.of_N parent_difficulty / 2048 <= Z.of_N parent_difficulty.
  Proof using. clear Hparent. split; [apply Z.div_pos; lia|apply Z.div_le_upper_bound; lia]. Qed.
  Lemma D_value ommers timestamp d : (parent_timestamp < timestamp)%N -> D ommers timestamp = Done d ->
    Z.of_N d = difficulty_of rule ommers (Z.of_N number) (Z.of_N timestamp)
      (Z.of_N parent_timestamp) (Z.of_N parent_difficulty).
  Proof using Hparent.
    intros Ht E. destruct (C62_formula rule ommers number timestamp parent_timestamp
      parent_difficulty Ht Hparent) as (d' & E' & H). assert (d' = d) as -> by congruence. done.
  Qed.

  (** The difficulty is at least the minimum, and differs from that of the
      parent by at most 99/2048 downwards (unless the minimum is reached) and
      2/2048 plus the bomb upwards. *)
  Theorem C62_bounds ommers timestamp d :
    (parent_timestamp < timestamp)%N -> D ommers timestamp = Done d ->
    (131072 <= d)%N /\
    (parent_difficulty <= d + 99 * (parent_difficulty / 2048))%N /\
    ((131072 <= parent_difficulty)%N ->
     Z.of_N d <= Z.of_N (parent_difficulty + 2 * (parent_difficulty / 2048))
                 + bomb (fake_number rule (Z.of_N number))).
  Proof using Hparent.
    intros Ht E. apply D_value in E; [|done]. unfold difficulty_of in E.
    pose proof (correction_range ommers (Z.of_N timestamp - Z.of_N parent_timestamp)) as Hc.
    pose proof (bomb_nonneg _ fake_nonneg) as Hb. pose proof unit_pos as Hu.
    generalize dependent (bomb (fake_number rule (Z.of_N number))). intros b E Hb.
    generalize dependent (correction rule ommers (Z.of_N timestamp - Z.of_N parent_timestamp)).
    intros c Hc E. specialize (Hc ltac:(lia)). split; [lia|].
    assert (Hq : Z.of_N (parent_difficulty / 2048) = Z.of_N parent_difficulty / 2048).
    { rewrite div_of_N. done. }
    revert Hu E Hq. generalize (Z.of_N parent_difficulty / 2048).
    generalize (parent_difficulty / 2048)%N. intros u q Hu E Hq. nia.
  Qed.

  (** A later block is not more difficult. *)
  Theorem C62_later ommers t1 t2 d1 d2 :
    (parent_timestamp < t1)%N -> (t1 <= t2)%N -> D ommers t1 = Done d1 -> D ommers t2 = Done d2 ->
    (d2 <= d1)%N.
  Proof using Hparent.
    intros H1 H2 E1 E2. apply D_value in E1; [|done]. apply D_value in E2; [|lia].
    unfold difficulty_of in *.
    assert (correction rule ommers (Z.of_N t2 - Z.of_N parent_timestamp)
            <= correction rule ommers (Z.of_N t1 - Z.of_N parent_timestamp)) as Hc.
    { unfold correction. destruct rule.
      - destruct (Z.ltb_spec (Z.of_N t2 - Z.of_N parent_timestamp) 13);
          destruct (Z.ltb_spec (Z.of_N t1 - Z.of_N parent_timestamp) 13); lia.
      - apply Z.max_le_compat_r, Z.sub_le_mono_l, Z.div_le_mono; lia.
      - apply Z.max_le_compat_r, Z.sub_le_mono_l, Z.div_le_mono; lia. }
    pose proof unit_pos as Hu. revert E1 E2 Hc Hu.
    generalize (correction rule ommers (Z.of_N t2 - Z.of_N parent_timestamp)).
    generalize (correction rule ommers (Z.of_N t1 - Z.of_N parent_timestamp)).
    generalize (Z.of_N parent_difficulty / 2048). generalize (bomb (fake_number rule (Z.of_N number))).
    intros. nia.
  Qed.

  (** Without the bomb, and with the parent at or above the minimum, the
      difficulty rises exactly for the blocks that come soon enough: within 13
      seconds in Frontier, 10 in Homestead, and from Byzantium 9, or 18 if the
      parent has ommers. From Homestead on it stays the same for as long
      again, or 9 seconds. *)
  Definition quick (ommers : bool) : N :=
    match rule with
    | FrontierRule => 13
    | HomesteadRule => 10
    | ByzantiumRule _ => if ommers then 18 else 9
    end.
  Definition neutral : N :=
    match rule with FrontierRule => 0 | HomesteadRule => 10 | ByzantiumRule _ => 9 end.
  Theorem C62_direction ommers age d :
    (131072 <= parent_difficulty)%N -> bomb (fake_number rule (Z.of_N number)) = 0 -> (0 < age)%N ->
    D ommers (parent_timestamp + age)%N = Done d ->
    ((parent_difficulty < d)%N <-> (age < quick ommers)%N) /\
    ((age < quick ommers + neutral)%N -> (parent_difficulty <= d)%N) /\
    ((quick ommers <= age)%N -> (d <= parent_difficulty)%N) /\
    ((131072 < parent_difficulty)%N -> (quick ommers + neutral <= age)%N ->
     (d < parent_difficulty)%N).
  Proof using Hparent.
    intros Hp Hb Hage E. apply D_value in E; [|lia]. unfold difficulty_of in E.
    rewrite Hb, Z.add_0_r in E.
    replace (Z.of_N (parent_timestamp + age) - Z.of_N parent_timestamp) with (Z.of_N age) in E by lia.
    assert (Hu : 64 <= Z.of_N parent_difficulty / 2048) by (apply Z.div_le_lower_bound; lia).
    assert (Hc : (0 < correction rule ommers (Z.of_N age) <-> (age < quick ommers)%N) /\
                 (correction rule ommers (Z.of_N age) < 0 <-> (quick ommers + neutral <= age)%N)).
    { unfold correction, quick, neutral. clear -Hage. destruct rule as [| |delay].
      - destruct (Z.ltb_spec (Z.of_N age) 13); lia.
      - pose proof (Z.div_mod (Z.of_N age) 10 ltac:(lia)).
        pose proof (Z.mod_pos_bound (Z.of_N age) 10 ltac:(lia)).
        split; split; intros; lia.
      - pose proof (Z.div_mod (Z.of_N age) 9 ltac:(lia)).
        pose proof (Z.mod_pos_bound (Z.of_N age) 9 ltac:(lia)).
        destruct ommers; split; split; intros; lia. }
    destruct Hc as [Hc1 Hc2]. pose proof unit_pos as Hu'.
    revert E Hc1 Hc2 Hu Hu'. generalize (correction rule ommers (Z.of_N age)) as c.
    generalize (Z.of_N parent_difficulty / 2048) as u. clear -Hp.
    intros u c E Hc1 Hc2 Hu Hu'.
    assert (Hpos : 0 < c -> 0 < u * c) by (intros; nia).
    assert (Hneg : c < 0 -> u * c < 0) by (intros; nia).
    assert (Hz : c = 0 -> u * c = 0) by (intros ->; lia).
    revert E Hpos Hneg Hz. generalize (u * c). intros x E Hpos Hneg Hz.
    repeat split; intros; lia.
  Qed.
End consequences.

(** EIP-100: a parent with ommers counts as nine seconds. *)
Theorem C62_ommers delay number age parent_timestamp parent_difficulty d1 d2 :
  (parent_timestamp + 13 < 2 ^ 256)%N -> (0 < age)%N ->
  calculate_block_difficulty (ByzantiumRule delay) number (parent_timestamp + age) parent_timestamp
    parent_difficulty false = Done d1 ->
  calculate_block_difficulty (ByzantiumRule delay) number (parent_timestamp + (age + 9))
    parent_timestamp parent_difficulty true = Done d2 ->
  d1 = d2.
Proof.
  intros Ho Ha E1 E2. apply D_value in E1, E2; [|lia..]. apply N2Z.inj. rewrite E1, E2.
  unfold difficulty_of, correction. do 4 f_equal.
  replace (Z.of_N (parent_timestamp + (age + 9)) - Z.of_N parent_timestamp)
    with (Z.of_N age + 1 * 9) by lia.
  replace (Z.of_N (parent_timestamp + age) - Z.of_N parent_timestamp) with (Z.of_N age) by lia.
  rewrite Z.div_add by lia. lia.
Qed.

(** The bomb: nothing before block 200000 (after the delay), then doubling
    every 100000 blocks; a longer delay never makes a block more difficult,
    and delaying by as many blocks as have passed changes nothing. *)
Theorem C62_bomb n : 0 <= n ->
  (bomb n = 0 <-> n < 200000) /\
  (200000 <= n < 300000 -> bomb n = 1) /\
  (200000 <= n -> bomb (n + 100000) = 2 * bomb n).
Proof.
  intros Hn. rewrite !bomb_cases by lia. split; [|split].
  - destruct (Z.ltb_spec n 200000); [lia|].
    assert (2 <= n / 100000) by (apply Z.div_le_lower_bound; lia).
    assert (0 < 2 ^ (n / 100000 - 2)) by (apply Z.pow_pos_nonneg; lia). lia.
  - intros H. destruct (Z.ltb_spec n 200000); [lia|].
    assert (2 <= n / 100000) by (apply Z.div_le_lower_bound; lia).
    assert (n / 100000 < 3) by (apply Z.div_lt_upper_bound; lia).
    by replace (n / 100000 - 2) with 0 by lia.
  - intros H. destruct (Z.ltb_spec n 200000); [lia|].
    destruct (Z.ltb_spec (n + 100000) 200000); [lia|].
    replace (n + 100000) with (n + 1 * 100000) by lia. rewrite Z.div_add by lia.
    assert (2 <= n / 100000) by (apply Z.div_le_lower_bound; lia).
    replace (n / 100000 + 1 - 2) with (Z.succ (n / 100000 - 2)) by lia.
    by rewrite Z.pow_succ_r by lia.
Qed.
Theorem C62_delay ommers number timestamp parent_timestamp parent_difficulty :
  (parent_timestamp < timestamp)%N -> (parent_timestamp + 13 < 2 ^ 256)%N ->
  (forall delay delay' d d', (delay <= delay')%N ->
    calculate_block_difficulty (ByzantiumRule delay) number timestamp parent_timestamp
      parent_difficulty ommers = Done d ->
    calculate_block_difficulty (ByzantiumRule delay') number timestamp parent_timestamp
      parent_difficulty ommers = Done d' ->
    (d' <= d)%N) /\
  (forall delay k,
    calculate_block_difficulty (ByzantiumRule (delay + k)) (number + k) timestamp parent_timestamp
      parent_difficulty ommers =
    calculate_block_difficulty (ByzantiumRule delay) number timestamp parent_timestamp
      parent_difficulty ommers).
Proof.
  intros Ht Ho. split.
  - intros delay delay' d d' Hd E E'. apply D_value in E, E'; [|done..].
    unfold difficulty_of, correction, fake_number in *.
    assert (bomb (Z.max 0 (Z.of_N number - Z.of_N delay'))
            <= bomb (Z.max 0 (Z.of_N number - Z.of_N delay))) by (apply bomb_mono; lia). lia.
  - intros delay k. cbn [calculate_block_difficulty]. unfold byzantium_difficulty.
    by replace (Z.of_N (number + k) - Z.of_N (delay + k)) with (Z.of_N number - Z.of_N delay) by lia.
Qed.

(** ** Concrete cases: the bomb at the last and first blocks of the forks, the
    first block of the main chain, and one case for each other rule *)
Definition bomb_at (f : pow_fork) (number : N) : Z := bomb (fake_number (pf_rule f) (Z.of_N number)).
Example C62_nonvacuous :
  bomb_at frontier 1149999 = 2 ^ 9 /\
  bomb_at spurious_dragon 4369999 = 2 ^ 41 /\ bomb_at byzantium 4370000 = 2 ^ 11 /\
  bomb_at byzantium 7279999 = 2 ^ 40 /\ bomb_at constantinople 7280000 = 2 ^ 20 /\
  bomb_at istanbul 9199999 = 2 ^ 39 /\ bomb_at muir_glacier 9200000 = 1 /\
  bomb_at berlin 12964999 = 2 ^ 37 /\ bomb_at london 12965000 = 2 ^ 30 /\
  bomb_at london 13772999 = 2 ^ 38 /\ bomb_at arrow_glacier 13773000 = 2 ^ 28 /\
  bomb_at arrow_glacier 15049999 = 2 ^ 41 /\ bomb_at gray_glacier 15050000 = 2 ^ 34 /\
  calculate_block_difficulty FrontierRule 1 1438269988 0 17179869184 false = Done 17171480576%N /\
  calculate_block_difficulty HomesteadRule 300000 1005 1000 1000000 false = Done 1000490%N /\
  calculate_block_difficulty (ByzantiumRule 100000) 300000 1017 1000 1000000 true
    = Done 1000489%N /\
  calculate_block_difficulty (ByzantiumRule 100000) 300000 1008 1000 1000000 false
    = Done 1000489%N /\
  calculate_block_difficulty (ByzantiumRule 100000) 300000 5000 1000 140000 false
    = Done 133269%N.
Proof. repeat split; vm_compute; reflexivity. Qed.

Definition PropDifficulty_theorems :=
  (@C62_formula, @C62_raises, @C62_bounds, @C62_later, @C62_direction, @C62_ommers, @C62_bomb,
   @C62_delay).
Print Assumptions PropDifficulty_theorems.
