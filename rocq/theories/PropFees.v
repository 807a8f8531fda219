(** * Properties C31 (base fee) and C33 (blob fee). *)
From Verif Require Import Base State Rlp Vm Instructions Interpreter Transactions Blocks Fork
  StateSpec StateProofs NumericProofs.
Local Ltac Zify.zify_post_hook ::= idtac.

(** ** C31 *)

Lemma obind_done {A B} (m : outcome A) (f : A -> outcome B) b :
  obind m f = Done b -> exists a, m = Done a /\ f a = Done b.
Proof. destruct m; cbn; [eauto|done]. Qed.
Lemma usub_done a b c : usub a b = Done c -> b <= a /\ c = a - b.
Proof. unfold usub. destruct (N.ltb_spec a b); [done|]. intros [= <-]. done. Qed.
Lemma usub_ok a b : b <= a -> usub a b = Done (a - b).
Proof. unfold usub. destruct (N.ltb_spec a b); [lia|done]. Qed.
Lemma udiv_done a b c : udiv a b = Done c -> b <> 0 /\ c = a / b.
Proof. unfold udiv. destruct (N.eqb_spec b 0); [done|]. intros [= <-]. done. Qed.

Lemma check_gas_limit_spec g p : check_gas_limit g p = true <->
  g < p + p / 1024 /\ p - p / 1024 < g /\ 5000 <= g.
Proof.
  unfold check_gas_limit, GAS_LIMIT_ADJUSTMENT_FACTOR, GAS_LIMIT_MINIMUM.
  destruct (N.leb_spec (p + p / 1024) g); [split; [done|lia]|].
  destruct (N.leb_spec g (p - p / 1024)); [split; [done|lia]|].
  destruct (N.ltb_spec g 5000); split; done || lia.
Qed.

(** The parent of an acceptable header has a positive gas target. *)
Lemma target_pos g p : check_gas_limit g p = true -> 2498 <= p / 2.
Proof.
  intros (H1 & _ & H3)%check_gas_limit_spec.
  assert (p / 1024 <= p / 1024) by done.
  pose proof (N.div_mod p 1024 ltac:(done)). pose proof (N.mod_lt p 1024 ltac:(done)).
  apply N.div_le_lower_bound; [done|]. lia.
Qed.

(** The exact value: the base fee of the parent, adjusted by the fraction
    (gas used - target) / (8 * target) of it, rounded down; and at least 1
    when going up. *)
Theorem C31_value limit parent_limit parent_used parent_fee fee :
  calculate_base_fee_per_gas limit parent_limit parent_used parent_fee = Done fee <->
  check_gas_limit limit parent_limit = true /\
  let target := parent_limit / 2 in
  if parent_used <=? target
  then fee = parent_fee - parent_fee * (target - parent_used) / (8 * target)
  else fee = parent_fee + N.max 1 (parent_fee * (parent_used - target) / (8 * target)).
Proof.
  unfold calculate_base_fee_per_gas, ELASTICITY_MULTIPLIER, BASE_FEE_MAX_CHANGE_DENOMINATOR.
  destruct (check_gas_limit limit parent_limit) eqn:Ec; cbn [negb]; [|split; [done|by intros [? _]]].
  pose proof (target_pos _ _ Ec) as Ht. cbv zeta. set (t := parent_limit / 2) in *.
  unfold udiv. rewrite (proj2 (N.eqb_neq t 0)) by lia. cbn [obind].
  assert (Hd : forall x, x / t / 8 = x / (8 * t)).
  { intros x. rewrite N.div_div by lia. by rewrite (N.mul_comm t). }
  rewrite !Hd.
  destruct (N.eqb_spec parent_used t) as [->|Hne].
  - rewrite (proj2 (N.leb_le _ _)) by done. rewrite N.sub_diag, N.mul_0_r, N.div_0_l by lia.
    rewrite N.sub_0_r. split; [intros [= <-]|intros [_ <-]]; done.
  - destruct (N.ltb_spec t parent_used) as [Hlt|Hge].
    + rewrite (proj2 (N.leb_gt _ _)) by done. rewrite N.max_comm.
      split; [intros [= <-]|intros [_ <-]]; done.
    + rewrite (proj2 (N.leb_le _ _)) by done.
      assert (Hle : parent_fee * (t - parent_used) / (8 * t) <= parent_fee).
      { apply N.div_le_upper_bound; [lia|]. nia. }
      rewrite usub_ok by done. split; [intros [= <-]|intros [_ <-]]; done.
Qed.

(** Never an error for an acceptable gas limit: no division by zero, no
    underflow. *)
Theorem C31_total limit parent_limit parent_used parent_fee :
  check_gas_limit limit parent_limit = true ->
  exists fee, calculate_base_fee_per_gas limit parent_limit parent_used parent_fee = Done fee.
Proof.
  intros Hc. destruct (N.leb_spec parent_used (parent_limit / 2)) as [H|H].
  - eexists. apply C31_value. split; [done|]. cbv zeta. rewrite (proj2 (N.leb_le _ _)) by done. reflexivity.
  - eexists. apply C31_value. split; [done|]. cbv zeta. rewrite (proj2 (N.leb_gt _ _)) by done. reflexivity.
Qed.

(** Direction: up exactly when more than the target was used; never up
    otherwise; unchanged at the target. *)
Theorem C31_direction limit parent_limit parent_used parent_fee fee :
  calculate_base_fee_per_gas limit parent_limit parent_used parent_fee = Done fee ->
  let target := parent_limit / 2 in
  (parent_fee < fee <-> target < parent_used) /\
  (fee < parent_fee -> parent_used < target) /\
  (parent_used = target -> fee = parent_fee) /\
  (8 * target <= parent_fee * (target - parent_used) -> fee < parent_fee).
Proof.
  intros [Hc H]%C31_value. cbv zeta in *. pose proof (target_pos _ _ Hc) as Ht.
  set (t := parent_limit / 2) in *.
  destruct (N.leb_spec parent_used t) as [Hle|Hgt].
  - split; [revert H; generalize (parent_fee * (t - parent_used) / (8 * t)); intros x H; lia|]. split.
    + intros Hf. destruct (N.eq_dec parent_used t) as [->|]; [|lia].
      rewrite N.sub_diag, N.mul_0_r, N.div_0_l in H by lia. lia.
    + split.
      * intros ->. rewrite N.sub_diag, N.mul_0_r, N.div_0_l in H by lia. lia.
      * intros Hb.
        assert (1 <= parent_fee * (t - parent_used) / (8 * t)) by (apply N.div_le_lower_bound; lia).
        assert (parent_fee <> 0) by (intros ->; rewrite N.mul_0_l in Hb; lia). lia.
  - split; [lia|]. split; [lia|]. split; [lia|].
    intros Hb. replace (t - parent_used) with 0 in Hb by lia. lia.
Qed.

(** Size: down by at most one eighth (so never to zero); up by at least one
    and, if at most twice the target was used, by at most one eighth (or
    one). Gas limits that are odd allow slightly more than twice the target:
    in general the increase is at most (fee + fee / target) / 8. *)
Theorem C31_bounds limit parent_limit parent_used parent_fee fee :
  calculate_base_fee_per_gas limit parent_limit parent_used parent_fee = Done fee ->
  let target := parent_limit / 2 in
  parent_fee - parent_fee / 8 <= fee /\
  (0 < parent_fee -> 0 < fee) /\
  (target < parent_used -> parent_fee + 1 <= fee) /\
  (parent_used <= 2 * target -> fee <= parent_fee + N.max 1 (parent_fee / 8)) /\
  (parent_used <= parent_limit -> fee <= parent_fee + N.max 1 ((parent_fee + parent_fee / target) / 8)).
Proof.
  intros [Hc H]%C31_value. cbv zeta in *. pose proof (target_pos _ _ Hc) as Ht.
  assert (Hlim : parent_limit <= 2 * (parent_limit / 2) + 1).
  { pose proof (N.div_mod parent_limit 2 ltac:(done)). pose proof (N.mod_lt parent_limit 2 ltac:(done)). lia. }
  set (t := parent_limit / 2) in *.
  assert (He : parent_fee / 8 <= parent_fee) by (apply N.div_le_upper_bound; lia).
  assert (Hpos : 0 < parent_fee -> 0 < parent_fee - parent_fee / 8).
  { intros. assert (parent_fee / 8 < parent_fee) by (apply N.div_lt; lia). lia. }
  destruct (N.leb_spec parent_used t) as [Hle|Hgt].
  - assert (Hd : parent_fee * (t - parent_used) / (8 * t) <= parent_fee / 8).
    { transitivity (parent_fee * t / (8 * t)).
      - apply N.div_le_mono; [lia|]. apply N.mul_le_mono_l. lia.
      - rewrite N.div_mul_cancel_r by lia. done. }
    revert H Hd. generalize (parent_fee * (t - parent_used) / (8 * t)). intros x H Hd.
    split; [lia|]. split; [intros; specialize (Hpos ltac:(done)); lia|]. split; [lia|]. split; lia.
  - revert H. set (x := parent_fee * (parent_used - t) / (8 * t)). intros H.
    split; [clearbody x; lia|]. split; [clearbody x; lia|]. split; [clearbody x; lia|]. split.
    + intros Hu.
      assert (Hd : parent_fee * (parent_used - t) / (8 * t) <= parent_fee / 8).
      { transitivity (parent_fee * t / (8 * t)).
        - apply N.div_le_mono; [lia|]. apply N.mul_le_mono_l. lia.
        - rewrite N.div_mul_cancel_r by lia. done. }
      fold x in Hd. clearbody x. lia.
    + intros Hu.
      assert (Hd : parent_fee * (parent_used - t) / (8 * t) <= (parent_fee + parent_fee / t) / 8).
      { transitivity (parent_fee * (t + 1) / (8 * t)).
        - apply N.div_le_mono; [lia|]. apply N.mul_le_mono_l. lia.
        - rewrite (N.mul_comm 8), <- N.div_div by lia. apply N.div_le_mono; [lia|].
          rewrite N.mul_add_distr_l, N.mul_1_r, N.add_comm.
          rewrite N.div_add by lia. lia. }
      fold x in Hd. clearbody x. lia.
Qed.

(** The one-eighth bound does fail for an odd gas limit. *)
Theorem C31_eighth_refuted :
  calculate_base_fee_per_gas 5001 5001 5001 20000 = Done 22501 /\ 20000 + 20000 / 8 < 22501.
Proof. split; vm_compute; done. Qed.

(** Monotone in the gas used by the parent. *)
Theorem C31_monotone limit parent_limit used1 used2 parent_fee fee1 fee2 :
  calculate_base_fee_per_gas limit parent_limit used1 parent_fee = Done fee1 ->
  calculate_base_fee_per_gas limit parent_limit used2 parent_fee = Done fee2 ->
  used1 <= used2 -> fee1 <= fee2.
Proof.
  intros [Hc H1]%C31_value [_ H2]%C31_value Hu. cbv zeta in *. pose proof (target_pos _ _ Hc) as Ht.
  set (t := parent_limit / 2) in *.
  destruct (N.leb_spec used1 t) as [L1|L1], (N.leb_spec used2 t) as [L2|L2]; subst.
  - assert (parent_fee * (t - used2) / (8 * t) <= parent_fee * (t - used1) / (8 * t)); [|lia].
    apply N.div_le_mono; [lia|]. apply N.mul_le_mono_l. lia.
  - transitivity parent_fee; [apply N.le_sub_l|apply N.le_add_r].
  - lia.
  - assert (parent_fee * (used1 - t) / (8 * t) <= parent_fee * (used2 - t) / (8 * t)); [|lia].
    apply N.div_le_mono; [lia|]. apply N.mul_le_mono_l. lia.
Qed.

Example C31_nonvacuous :
  calculate_base_fee_per_gas 36000000 36000000 36000000 8000000000 = Done 9000000000 /\
  calculate_base_fee_per_gas 36000000 36000000 0 8000000000 = Done 7000000000 /\
  calculate_base_fee_per_gas 36000000 36000000 18000001 7 = Done 8 /\
  calculate_base_fee_per_gas 36000000 36000000 17999999 7 = Done 7.
Proof. vm_compute. repeat split. Qed.

(** ** C33 *)

(** The series of EIP-4844's fake exponential: integer terms, each computed
    from the previous one by a rounded-down division. *)
Fixpoint term (factor num den : N) (k : nat) : N :=
  match k with
  | O => factor * den
  | S j => term factor num den j * num / (den * N.of_nat (S j))
  end.
Fixpoint terms_sum (factor num den : N) (n : nat) : N :=
  match n with
  | O => 0
  | S j => terms_sum factor num den j + term factor num den j
  end.

Lemma term_zero factor num den n k : 0 < den -> term factor num den n = 0 -> (n <= k)%nat ->
  term factor num den k = 0.
Proof.
  intros Hd Hn. induction 1 as [|k _ IH]; [done|].
  cbn [term]. rewrite IH. rewrite N.mul_0_l. apply N.div_0_l. lia.
Qed.
Lemma sum_stable factor num den n k : 0 < den -> term factor num den n = 0 -> (n <= k)%nat ->
  terms_sum factor num den k = terms_sum factor num den n.
Proof.
  intros Hd Hn H. induction H as [|k H IH]; [done|].
  cbn [terms_sum]. rewrite IH. rewrite (term_zero factor num den n k) by done. lia.
Qed.

Lemma taylor_steps factor num den n s :
  steps (taylor_step num den) n (1, 0, factor * den) s ->
  s = (N.of_nat n + 1, terms_sum factor num den n, term factor num den n).
Proof.
  revert s. induction n as [|n IH]; intros s H.
  - by inversion H.
  - assert (exists s1, steps (taylor_step num den) n (1, 0, factor * den) s1 /\
      taylor_step num den s1 = inl s) as (s1 & H1 & H2).
    { clear IH. revert H. generalize (1, 0, factor * den). induction n as [|n IH]; intros s0 H.
      - inversion H as [|? ? ? ? E H0]; subst. inversion H0; subst. exists s0. split; [constructor|done].
      - inversion H as [|? ? ? ? E H0]; subst. destruct (IH _ H0) as (s2 & A1 & A2).
        exists s2. split; [by econstructor|done]. }
    apply IH in H1 as ->. unfold taylor_step in H2.
    destruct (N.eqb_spec (term factor num den n) 0); [done|]. injection H2 as <-.
    cbn [terms_sum term]. do 2 f_equal; [f_equal; lia|]. f_equal. f_equal. lia.
Qed.

(** The loop ends after finitely many terms, at the first zero one, and
    returns the sum of the (then complete) series divided by the
    denominator. *)
Theorem C33_series factor num den : 0 < den ->
  exists n, term factor num den n = 0 /\
    (forall k, (n <= k)%nat -> terms_sum factor num den k = terms_sum factor num den n) /\
    taylor_exponential factor num den = Some (terms_sum factor num den n / den).
Proof.
  intros Hd. destruct (taylor_loop_total factor num den Hd) as (n & s & v & Hs & Hv & E).
  apply taylor_steps in Hs as ->. unfold taylor_step in Hv.
  destruct (N.eqb_spec (term factor num den n) 0) as [Hz|]; [|done]. injection Hv as <-.
  exists n. split; [done|]. split; [|done]. intros k Hk. by apply sum_stable.
Qed.

(** Each term is at most the corresponding term factor * (num/den)^k / k! of
    the exponential series (times den). *)
Fixpoint factorial (k : nat) : N :=
  match k with O => 1 | S j => N.of_nat (S j) * factorial j end.
Theorem C33_terms_below_exponential factor num den k : 0 < den ->
  term factor num den k * (den ^ N.of_nat k * factorial k) <= factor * den * num ^ N.of_nat k.
Proof.
  intros Hd. induction k as [|k IH].
  - cbn [term factorial]. change (N.of_nat 0) with 0. rewrite !N.pow_0_r. lia.
  - rewrite Nat2N.inj_succ, !N.pow_succ_r'. cbn [term factorial].
    set (K := N.of_nat (S k)). set (T := term factor num den k) in *.
    assert (HK : den * K <> 0) by (unfold K; nia).
    pose proof (N.mul_div_le (T * num) (den * K) HK) as Hm.
    transitivity (T * num * (den ^ N.of_nat k * factorial k)).
    + replace (T * num / (den * K) * (den * den ^ N.of_nat k * (K * factorial k)))
        with (den * K * (T * num / (den * K)) * (den ^ N.of_nat k * factorial k)) by lia.
      by apply N.mul_le_mono_r.
    + replace (T * num * (den ^ N.of_nat k * factorial k)) with (num * (T * (den ^ N.of_nat k * factorial k))) by lia.
      replace (factor * den * (num * num ^ N.of_nat k)) with (num * (factor * den * num ^ N.of_nat k)) by lia.
      by apply N.mul_le_mono_l.
Qed.

Lemma term_mono factor num1 num2 den k : 0 < den -> num1 <= num2 ->
  term factor num1 den k <= term factor num2 den k.
Proof.
  intros Hd Hn. induction k as [|k IH]; [done|]. cbn [term].
  apply N.div_le_mono; [nia|]. by apply N.mul_le_mono.
Qed.
Lemma sum_mono factor num1 num2 den k : 0 < den -> num1 <= num2 ->
  terms_sum factor num1 den k <= terms_sum factor num2 den k.
Proof.
  intros Hd Hn. induction k as [|k IH]; [done|]. cbn [terms_sum].
  apply N.add_le_mono; [done|]. by apply term_mono.
Qed.

Theorem C33_taylor_monotone factor num1 num2 den v1 v2 : 0 < den -> num1 <= num2 ->
  taylor_exponential factor num1 den = Some v1 ->
  taylor_exponential factor num2 den = Some v2 -> factor <= v1 <= v2.
Proof.
  intros Hd Hn E1 E2.
  destruct (C33_series factor num1 den Hd) as (n1 & Z1 & S1 & R1).
  destruct (C33_series factor num2 den Hd) as (n2 & Z2 & S2 & R2).
  rewrite E1 in R1. injection R1 as ->. rewrite E2 in R2. injection R2 as ->.
  rewrite <- (S1 (S (n1 `max` n2))), <- (S2 (S (n1 `max` n2))) by lia.
  set (n := (n1 `max` n2)%nat). split.
  - apply N.div_le_lower_bound; [lia|].
    assert (forall m, factor * den <= terms_sum factor num1 den (S m)) as Hm.
    { induction m as [|m IH]; [cbn; lia|]. cbn [terms_sum] in *. lia. }
    specialize (Hm n). lia.
  - apply N.div_le_mono; [lia|]. by apply sum_mono.
Qed.

(** The blob gas price is defined for every excess, at least 1, and monotone. *)
Theorem C33_price excess1 excess2 : excess1 <= excess2 ->
  exists p1 p2, calculate_blob_gas_price excess1 = Some p1 /\
    calculate_blob_gas_price excess2 = Some p2 /\ 1 <= p1 <= p2.
Proof.
  intros H. destruct (blob_price_total excess1) as [p1 E1]. destruct (blob_price_total excess2) as [p2 E2].
  exists p1, p2. split; [done|]. split; [done|].
  apply (C33_taylor_monotone MIN_BLOB_GASPRICE excess1 excess2 BLOB_BASE_FEE_UPDATE_FRACTION p1 p2); done.
Qed.

(** The exact price: the complete series for the excess over 5007716. *)
Definition blob_price (excess price : N) : Prop := exists n,
  term 1 excess 5007716 n = 0 /\ price = terms_sum 1 excess 5007716 n / 5007716.
Theorem C33_value excess price :
  calculate_blob_gas_price excess = Some price <-> blob_price excess price.
Proof.
  destruct (C33_series 1 excess 5007716 ltac:(done)) as (n & Z & S & E).
  change (calculate_blob_gas_price excess) with (taylor_exponential 1 excess 5007716). rewrite E.
  split.
  - intros [= <-]. by exists n.
  - intros (m & Zm & ->). do 2 f_equal. destruct (le_ge_dec n m) as [H|H].
    + by rewrite (S m H).
    + apply sum_stable; done.
Qed.

Lemma blob_gas_price_done f x : exists p, blob_gas_price f x = Done p /\ fork_blob_gas_price f x = Some p.
Proof.
  destruct (fork_blob_price_total f x) as [p E]. exists p. split; [|done]. unfold blob_gas_price. by rewrite E.
Qed.

(** The target of a block: 3 blobs in Cancun, 6 since Prague. *)
Definition blob_target (f : pos_fork) : N := match f with Prague | Osaka => 6 * 131072 | _ => 3 * 131072 end.
Lemma blob_target_spec f : target_blob_gas_per_block f = blob_target f.
Proof. by destruct f. Qed.
Lemma same_class_spec f g : (fork_rank f =? fork_rank g) = bool_decide (f = g).
Proof. by destruct f, g. Qed.
(** The excess and the usage of the parent count when the parent belongs to the
    same fork; at the first block of a fork they are taken to be zero. *)
Definition parent_excess (f : pos_fork) (parent : header) : N :=
  if bool_decide (h_fork parent = f) then h_excess_blob_gas parent else 0.
Definition parent_usage (f : pos_fork) (parent : header) : N :=
  if bool_decide (h_fork parent = f) then h_blob_gas_used parent else 0.
Lemma osaka_spec f : at_least Osaka f = bool_decide (f = Osaka).
Proof. by destruct f. Qed.

(** The excess blob gas of a child: zero when the parent's excess and usage
    together are below the target; otherwise never below the
    parent's excess minus the target, and never above the parent's excess plus
    the usage of one block; with at most three blobs above the target in the
    parent it grows by at most 3 blobs. *)
Theorem C33_excess f parent x :
  calculate_excess_blob_gas f parent = Done x ->
  let excess := parent_excess f parent in
  let used := parent_usage f parent in
  (excess + used < blob_target f -> x = 0) /\
  excess - blob_target f <= x /\ x <= excess + used /\
  (used <= blob_target f + 3 * 131072 -> x <= excess + 3 * 131072).
Proof.
  cbv zeta. unfold calculate_excess_blob_gas. intros H.
  rewrite same_class_spec in H. fold (parent_excess f parent) (parent_usage f parent) in H.
  set (e := parent_excess f parent) in *. set (u := parent_usage f parent) in *.
  rewrite !blob_target_spec, osaka_spec in H.
  apply obind_done in H as (pb & Hpb & H).
  assert (pb = e + u) as ->. { unfold u64 in Hpb. destruct (_ <? _); [|done]. by injection Hpb. }
  clear Hpb.
  destruct (N.ltb_spec (e + u) (blob_target f)) as [Hlt|Hge].
  - injection H as <-. lia.
  - destruct (bool_decide_reflect (f = Osaka)) as [->|]; cbn [negb] in H; [|apply usub_done in H as [_ ->]; lia].
    change (blob_target Osaka) with (6 * 131072) in *.
    apply obind_done in H as (price & _ & H). destruct (_ <? _).
    + change (usub BLOB_SCHEDULE_MAX BLOB_SCHEDULE_TARGET) with (Done 3) in H. cbn [obind] in H.
      apply obind_done in H as (sc & Hsc & H).
      assert (sc = u * 3) as ->. { unfold u64 in Hsc. destruct (_ <? _); [|done]. by injection Hsc. }
      change BLOB_SCHEDULE_MAX with 9 in H.
      assert (x = e + u * 3 / 9) as ->. { unfold u64 in H. destruct (_ <? _); [|done]. by injection H. }
      assert (u * 3 / 9 <= u) by (apply N.div_le_upper_bound; lia).
      split; [lia|]. split; [lia|]. split; [lia|]. intros.
      assert (u * 3 / 9 <= 3 * 131072) by (apply N.div_le_upper_bound; lia). lia.
    + apply usub_done in H as [_ ->]. lia.
Qed.

(** The exact excess: nothing below the target; in Osaka, while a blob's worth of
    execution gas costs more than its blob gas, a third of the usage is added;
    otherwise what exceeds the target. *)
Definition child_excess (f : pos_fork) (parent : header) (x : N) : Prop :=
  let excess := parent_excess f parent in
  let used := parent_usage f parent in
  exists price, blob_price excess price /\
    x = if excess + used <? blob_target f then 0
        else if bool_decide (f = Osaka) && (131072 * price <? 8192 * h_base_fee_per_gas parent)
        then excess + used * 3 / 9
        else excess + used - blob_target f.
Theorem C33_excess_value f parent x :
  calculate_excess_blob_gas f parent = Done x -> child_excess f parent x.
Proof.
  unfold child_excess, calculate_excess_blob_gas. intros H. cbv zeta.
  rewrite same_class_spec in H. fold (parent_excess f parent) (parent_usage f parent) in H.
  set (e := parent_excess f parent) in *. set (u := parent_usage f parent) in *.
  rewrite !blob_target_spec, osaka_spec in H.
  destruct (blob_gas_price_done Osaka e) as (p & Hp & Hp'). exists p. split; [by apply C33_value|].
  apply obind_done in H as (pb & Hpb & H).
  assert (pb = e + u) as ->. { unfold u64 in Hpb. destruct (_ <? _); [|done]. by injection Hpb. }
  clear Hpb. destruct (N.ltb_spec (e + u) (blob_target f)) as [Hlt|Hge]; [by injection H as <-|].
  destruct (bool_decide_reflect (f = Osaka)) as [->|]; cbn [negb andb] in H |- *; [|by apply usub_done in H as [_ ->]].
  rewrite Hp in H. cbn [obind] in H. change GAS_PER_BLOB with 131072 in H. change BLOB_BASE_COST with 8192 in H.
  destruct (_ <? _).
  - change (usub BLOB_SCHEDULE_MAX BLOB_SCHEDULE_TARGET) with (Done 3) in H. cbn [obind] in H.
    apply obind_done in H as (sc & Hsc & H).
    assert (sc = u * 3) as ->. { unfold u64 in Hsc. destruct (_ <? _); [|done]. by injection Hsc. }
    change BLOB_SCHEDULE_MAX with 9 in H. unfold u64 in H. destruct (_ <? _); [|done]. by injection H as <-.
  - by apply usub_done in H as [_ ->].
Qed.

(** It raises only when a U64 overflows, which needs an excess or usage near
    2^64. *)
Theorem C33_excess_total f parent :
  h_excess_blob_gas parent + h_blob_gas_used parent < 2 ^ 64 -> 3 * h_blob_gas_used parent < 2 ^ 64 ->
  exists x, calculate_excess_blob_gas f parent = Done x.
Proof.
  intros H1' H2'. unfold calculate_excess_blob_gas.
  rewrite same_class_spec. fold (parent_excess f parent) (parent_usage f parent).
  assert (H1 : parent_excess f parent + parent_usage f parent < 2 ^ 64)
    by (unfold parent_excess, parent_usage; destruct (bool_decide _); lia).
  assert (H2 : 3 * parent_usage f parent < 2 ^ 64) by (unfold parent_usage; destruct (bool_decide _); lia).
  set (e := parent_excess f parent) in *. set (u := parent_usage f parent) in *.
  unfold u64 at 1. rewrite (proj2 (N.ltb_lt _ _)) by done. cbn [obind].
  destruct (N.ltb_spec (e + u) (target_blob_gas_per_block f)) as [|Hge]; [by eexists|].
  destruct (at_least Osaka f); cbn [negb]; [|rewrite usub_ok by done; by eexists].
  destruct (blob_gas_price_done f e) as (p & -> & _). cbn [obind].
  destruct (_ <? _).
  - change (usub BLOB_SCHEDULE_MAX BLOB_SCHEDULE_TARGET) with (Done 3). cbn [obind].
    unfold u64 at 1. rewrite (proj2 (N.ltb_lt _ _)) by lia. cbn [obind].
    unfold u64. change BLOB_SCHEDULE_MAX with 9.
    assert (u * 3 / 9 <= u) by (apply N.div_le_upper_bound; lia).
    rewrite (proj2 (N.ltb_lt _ _)) by lia. by eexists.
  - rewrite usub_ok by done. by eexists.
Qed.

(** The comment in calculate_excess_blob_gas says that the excess and the usage of
    the parent are taken to be zero "at the fork block" of EIP-4844, which is the
    first block of Cancun.  Every package tests for its own class of headers, so
    they are taken to be zero also at the first block of Prague and of Osaka: the
    accumulated excess is forgotten and the price of blobs falls to the minimum. *)
Theorem C33_fork_block_refuted :
  exists parent, h_fork parent = Cancun /\
    calculate_excess_blob_gas Cancun parent = Done 79214080 /\
    calculate_excess_blob_gas Prague parent = Done 0 /\
    h_excess_blob_gas parent + h_blob_gas_used parent - 6 * 131072 = 78820864.
Proof.
  exists (Header Cancun [] [] 0 [] [] [] [] 0 7 36000000 18000000 1000 [] 0 [] 7 [] 393216 79214080 0 []).
  vm_compute. repeat split.
Qed.

Definition blob_header_of (f : pos_fork) (excess used fee : N) : header :=
  Header f [] [] 0 [] [] [] [] 0 7 36000000 18000000 1000 [] 0 [] fee [] used excess 0 [].
Definition blob_header := blob_header_of Osaka.
Example C33_nonvacuous :
  calculate_blob_gas_price 0 = Some 1 /\ calculate_blob_gas_price 10000000 = Some 7 /\
  calculate_excess_blob_gas Osaka (blob_header 0 786431 7) = Done 0 /\
  calculate_excess_blob_gas Osaka (blob_header 1000000 1179648 7) = Done 1393216 /\
  calculate_excess_blob_gas Osaka (blob_header 1000000 1179648 1000) = Done 1393216 /\
  calculate_excess_blob_gas Osaka (blob_header 1000000 786432 1000) = Done 1262144 /\
  calculate_excess_blob_gas Osaka (blob_header (2 ^ 64 - 1) 1 7) = Fail (FCrash OverflowError) /\
  calculate_excess_blob_gas Prague (blob_header_of Prague 1000000 786432 1000) = Done 1000000 /\
  calculate_excess_blob_gas Cancun (blob_header_of Cancun 1000000 786432 1000) = Done 1393216 /\
  calculate_excess_blob_gas Cancun (blob_header_of Shanghai 1000000 786432 1000) = Done 0.
Proof. vm_compute. repeat split. Qed.

Definition PropFees_theorems :=
  (@C31_value, @C31_total, @C31_direction, @C31_bounds, @C31_eighth_refuted, @C31_monotone,
   @C33_series, @C33_terms_below_exponential, @C33_taylor_monotone, @C33_price, @C33_value, @C33_excess, @C33_excess_value,
   @C33_excess_total, @C33_fork_block_refuted).
Print Assumptions PropFees_theorems.
