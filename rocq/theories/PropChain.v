(** * PropChain: properties C32 (gas limits), C37 (chains are linked), C38
    (BLOCKHASH) and C39 (rejected blocks). *)
From Verif Require Import Base State Rlp Vm Instructions Precompiles Interpreter StateSpec StateProofs
  NumericProofs Trie Bloom Transactions Blocks Requests Fork ForkProofs EvmStep EvmExamples ForkExamples.
From Coq Require Import ZifyBool ZifyN ZifyNat.
Ltac Zify.zify_post_hook ::= idtac.

(** Blobs came with Cancun, withdrawals with Shanghai, requests with Prague. *)
Definition has_blobs (f : pos_fork) : Prop := match f with Paris | Shanghai => False | _ => True end.
Definition has_withdrawals (f : pos_fork) : Prop := match f with Paris => False | _ => True end.
Definition has_requests (f : pos_fork) : Prop := match f with Prague | Osaka => True | _ => False end.
Lemma has_blobs_spec f : at_least Cancun f = true <-> has_blobs f.
Proof. by destruct f. Qed.
Lemma has_withdrawals_spec f : at_least Shanghai f = true <-> has_withdrawals f.
Proof. by destruct f. Qed.
Lemma has_requests_spec f : at_least Prague f = true <-> has_requests f.
Proof. by destruct f. Qed.
Lemma is_osaka_spec f : at_least Osaka f = true <-> f = Osaka.
Proof. by destruct f. Qed.

Section Chain.
  Context (cr : crypto).

  (** All chains the specification can build from [c0], with the list of all
      blocks ever accepted (the code keeps only the last 255). *)
  Inductive history (c0 : block_chain) : block_chain -> list block -> Prop :=
  | h_start : history c0 c0 (bc_blocks c0)
  | h_accept c l b c' : history c0 c l -> state_transition cr c b = (Done tt, c') ->
      history c0 c' (l ++ [b])
  | h_reject c l b e c' : history c0 c l -> state_transition cr c b = (Fail e, c') ->
      history c0 c' l.

  (** What an accepted block's header says about its parent. *)
  Record follows (p h : header) : Prop := {
    fo_number : h_number h = h_number p + 1;
    fo_parent : h_parent_hash h = header_hash cr p;
    fo_time : h_timestamp p < h_timestamp h;
    fo_gas : h_gas_used h <= h_gas_limit h;
    fo_limit : h_gas_limit h < h_gas_limit p + h_gas_limit p / 1024 /\
               h_gas_limit p - h_gas_limit p / 1024 < h_gas_limit h /\ 5000 <= h_gas_limit h;
    fo_base_fee : calculate_base_fee_per_gas (h_gas_limit h) (h_gas_limit p) (h_gas_used p)
                    (h_base_fee_per_gas p) = Done (h_base_fee_per_gas h);
    fo_excess : has_blobs (h_fork h) ->
                calculate_excess_blob_gas (h_fork h) p = Done (h_excess_blob_gas h);
    fo_extra : lenN (h_extra_data h) <= 32;
    fo_stake : h_difficulty h = 0 /\ h_nonce h = zeros 8 /\
               h_ommers_hash h = keccak256 cr (encode (RList []));
  }.

  Lemma check_gas_limit_true g p : check_gas_limit g p = true ->
    g < p + p / 1024 /\ p - p / 1024 < g /\ 5000 <= g.
  Proof.
    unfold check_gas_limit, GAS_LIMIT_ADJUSTMENT_FACTOR, GAS_LIMIT_MINIMUM.
    destruct (N.leb_spec (p + p / 1024) g) as [|H1]; [done|].
    destruct (N.leb_spec g (p - p / 1024)) as [|H2]; [done|].
    destruct (N.ltb_spec g 5000) as [|H3]; done.
  Qed.

  Lemma validate_header_inv chain h u : validate_header cr chain h = Done u ->
    exists b, last (bc_blocks chain) = Some b /\ follows (bl_header b) h.
  Proof.
    unfold validate_header. intros H.
    apply obind_inv in H as ([] & H1 & H).
    apply obind_inv in H as (b & H2 & H).
    apply obind_inv in H as ([] & H3 & H).
    apply obind_inv in H as ([] & H5%check_inv%N.leb_le & H).
    apply obind_inv in H as (bf & H6 & H).
    apply obind_inv in H as ([] & H7%check_inv%N.eqb_eq & H).
    apply obind_inv in H as ([] & H8%check_inv%N.ltb_lt & H).
    apply obind_inv in H as ([] & H9%check_inv%N.eqb_eq & H).
    apply obind_inv in H as ([] & H10%check_inv%N.leb_le & H).
    apply obind_inv in H as ([] & H11%check_inv%N.eqb_eq & H).
    apply obind_inv in H as ([] & H12%check_inv%bytes_eqb_eq & H).
    apply obind_inv in H as ([] & H13%check_inv%bytes_eqb_eq & H).
    apply check_inv, bytes_eqb_eq in H.
    exists b. split; [by destruct (last (bc_blocks chain)); inversion H2|]. subst bf.
    constructor; try done.
    2:{ intros E3%has_blobs_spec. rewrite E3 in H3. cbv iota in H3. apply obind_inv in H3 as (ex & H3 & H4%check_inv%N.eqb_eq). by subst ex. }
    unfold calculate_base_fee_per_gas in H6.
    destruct (check_gas_limit _ _) eqn:E; [|done]. by apply check_gas_limit_true.
  Qed.

  (** ** Shape of a transition *)
  Lemma lastN_short {A} n (l : list A) : lenN l <= n -> lastN n l = l.
  Proof. intros H. unfold lastN. replace (lenN l - n) with 0 by lia. by rewrite dropN_skipn. Qed.

  Lemma transition_done chain b u chain' : state_transition cr chain b = (Done u, chain') ->
    validate_header cr chain (bl_header b) = Done tt /\ bl_ommers b = [] /\
    (h_fork (bl_header b) = Osaka -> lenN (encode (block_rlp b)) <= MAX_RLP_BLOCK_SIZE) /\
    (exists bo, apply_body cr (block_env_of cr chain (bl_header b)) (bl_transactions b) (bl_withdrawals b)
       (bc_state chain) = (Done bo, bc_state chain') /\
     check_output cr (bl_header b) bo (bc_state chain') = Done tt) /\
    bc_chain_id chain' = bc_chain_id chain /\
    bc_blocks chain' = lastN 255 (bc_blocks chain ++ [b]).
  Proof.
    unfold state_transition.
    destruct (at_least Osaka (h_fork (bl_header b)) && (MAX_RLP_BLOCK_SIZE <? lenN (encode (block_rlp b)))) eqn:HS0; [done|].
    assert (HS : h_fork (bl_header b) = Osaka -> lenN (encode (block_rlp b)) <= MAX_RLP_BLOCK_SIZE).
    { intros E%is_osaka_spec. rewrite E in HS0. by apply N.ltb_ge in HS0. }
    clear HS0.
    destruct (validate_header _ _ _) as [[]|] eqn:EV; [|done].
    destruct (bl_ommers b) eqn:EO; [|done].
    destruct (apply_body _ _ _ _ _) as [[bo|] s] eqn:EA; [|done].
    destruct (check_output _ _ _ _) as [[]|] eqn:EC; [|done].
    intros [= _ <-]. cbn [bc_state bc_blocks bc_chain_id]. split_and!; try done; [by exists bo|].
    destruct (N.ltb_spec 255 (lenN (bc_blocks chain ++ [b]))); [done|]. symmetry. by apply lastN_short.
  Qed.
  Lemma transition_fail chain b e chain' : state_transition cr chain b = (Fail e, chain') ->
    bc_blocks chain' = bc_blocks chain /\ bc_chain_id chain' = bc_chain_id chain.
  Proof.
    unfold state_transition. destruct (_ && _); [by intros [= _ <-]|].
    destruct (validate_header _ _ _); [|by intros [= _ <-]].
    destruct (bl_ommers b); [|by intros [= _ <-]].
    destruct (apply_body _ _ _ _ _) as [[bo|] s]; [|by intros [= _ <-]].
    destruct (check_output _ _ _ _); [done|]. by intros [= _ <-].
  Qed.

  (** ** Histories *)
  Lemma lenN_lastN {A} n (l : list A) : lenN (lastN n l) = N.min n (lenN l).
  Proof. unfold lastN. rewrite lenN_dropN. lia. Qed.
  Lemma lastN_app_lastN {A} n (l m : list A) : lastN n (lastN n l ++ m) = lastN n (l ++ m).
  Proof.
    unfold lastN. rewrite !lenN_app, !dropN_skipn. fold (lastN n l).
    assert (E : lenN (drop (N.to_nat (lenN l - n)) l) = lenN l - (lenN l - n)).
    { unfold lenN. rewrite skipn_length. lia. }
    rewrite E. destruct (N.le_gt_cases n (lenN l)) as [L|L].
    - rewrite !skipn_app, drop_drop, skipn_length.
      f_equal; f_equal; unfold lenN in *; lia.
    - replace (N.to_nat (lenN l - n)) with 0%nat by lia. rewrite drop_0. f_equal. lia.
  Qed.
  Lemma last_lastN {A} n (l : list A) : 0 < n -> last (lastN n l) = last l.
  Proof.
    intros Hn. unfold lastN. rewrite dropN_skipn. destruct l as [|x l _] using rev_ind; [done|].
    rewrite skipn_app. rewrite lenN_app. rewrite last_snoc.
    replace (N.to_nat (lenN l + lenN [x] - n) - length l)%nat with 0%nat.
    - rewrite drop_0. apply last_snoc.
    - change (lenN [x]) with 1. unfold lenN. lia.
  Qed.

  Theorem C37_retained c0 c l : lenN (bc_blocks c0) <= 255 -> history c0 c l ->
    bc_blocks c = lastN 255 l /\ bc_chain_id c = bc_chain_id c0.
  Proof.
    intros H0. induction 1 as [|c l b c' _ [IH1 IH2] E|c l b e c' _ [IH1 IH2] E].
    - split; [|done]. by rewrite lastN_short.
    - apply transition_done in E as (_ & _ & _ & _ & Ei & Eb).
      split; [|congruence]. by rewrite Eb, IH1, lastN_app_lastN.
    - apply transition_fail in E as [Eb Ei]. split; congruence.
  Qed.

  (** Every block of the history after the initial ones follows the one before
      it. *)
  Definition linked (l : list block) : Prop :=
    forall i b1 b2, nth_error l i = Some b1 -> nth_error l (S i) = Some b2 ->
      follows (bl_header b1) (bl_header b2).

  Lemma linked_snoc l b : linked l ->
    (forall p, last l = Some p -> follows (bl_header p) (bl_header b)) -> linked (l ++ [b]).
  Proof.
    intros Hl Hb i b1 b2 E1 E2.
    assert (HL : (S i < length (l ++ [b]))%nat) by (apply nth_error_Some; congruence).
    rewrite app_length in HL. cbn in HL. rewrite nth_error_app1 in E1 by lia.
    destruct (Nat.lt_ge_cases (S i) (length l)) as [L|L].
    - rewrite nth_error_app1 in E2 by lia. by eapply Hl.
    - rewrite nth_error_app2 in E2 by lia. replace (S i - length l)%nat with 0%nat in E2 by lia.
      injection E2 as <-. apply Hb. rewrite last_lookup. rewrite <- E1.
      replace (pred (length l)) with i by lia.
      clear. revert i. induction l; intros [|i]; try done. apply IHl.
  Qed.

  Theorem C37_linked c0 c l : lenN (bc_blocks c0) <= 255 -> linked (bc_blocks c0) ->
    history c0 c l -> linked l.
  Proof.
    intros H0 HL H. induction H as [|c l b c' Hh IH E|]; [done| |done].
    apply linked_snoc; [done|]. intros p Hp.
    apply transition_done in E as (EV & _). apply validate_header_inv in EV as (p' & Ep & Hf).
    destruct (C37_retained _ _ _ H0 Hh) as [Eb _]. rewrite Eb, last_lastN in Ep by done. congruence.
  Qed.

  (** The retained blocks are linked and number at most 255 and at least one,
      in every chain built from a chain that has these properties. *)
  Theorem C37_chain c0 c l : lenN (bc_blocks c0) <= 255 -> bc_blocks c0 <> [] -> linked (bc_blocks c0) ->
    history c0 c l -> linked (bc_blocks c) /\ 1 <= lenN (bc_blocks c) <= 255.
  Proof.
    intros H0 Hn HL H. destruct (C37_retained _ _ _ H0 H) as [-> _].
    pose proof (C37_linked _ _ _ H0 HL H) as Hl. split.
    - intros i b1 b2 E1 E2. unfold lastN in *. rewrite dropN_skipn in *.
      assert (HN : forall m k (x : list block), nth_error (drop m x) k = nth_error x (m + k)).
      { clear. intros m k x. revert m. induction x as [|y x IH]; intros m;
          [by rewrite drop_nil; destruct k, m|]. destruct m; [done|]. cbn. by rewrite IH. }
      rewrite HN in *. eapply Hl; [exact E1|]. by rewrite <- E2, <- Nat.add_succ_r.
    - rewrite lenN_lastN.
      assert (HN : 1 <= lenN l).
      { clear -H Hn. induction H as [|c l b c' Hh IH E|]; [|rewrite lenN_app|done].
        - destruct (bc_blocks c0); [done|]. rewrite lenN_cons. lia.
        - lia. }
      lia.
  Qed.

  (** Numbers are consecutive and timestamps increase strictly, at any
      distance. *)
  Theorem C37_numbers l i n b1 b2 : linked l ->
    nth_error l i = Some b1 -> nth_error l (i + n) = Some b2 ->
    h_number (bl_header b2) = h_number (bl_header b1) + N.of_nat n /\
    h_timestamp (bl_header b1) + N.of_nat n <= h_timestamp (bl_header b2).
  Proof.
    intros Hl E1. revert b2. induction n as [|n IH]; intros b2 E2.
    { rewrite Nat.add_0_r in E2. replace b2 with b1 by congruence. cbn. lia. }
    rewrite Nat.add_succ_r in E2.
    destruct (nth_error l (i + n)) as [b|] eqn:E.
    - destruct (IH b eq_refl) as [H1 H2]. destruct (Hl _ _ _ E E2). lia.
    - apply nth_error_None in E. assert (H : (S (i + n) < length l)%nat) by (apply nth_error_Some; congruence). lia.
  Qed.

  (** ** C32 *)
  Theorem C32_header p h : follows p h ->
    1024 * h_gas_limit h < 1025 * h_gas_limit p /\ 1023 * h_gas_limit p < 1024 * h_gas_limit h /\
    5000 <= h_gas_limit h.
  Proof.
    intros [_ _ _ _ (H1 & H2 & H3) _ _ _ _].
    pose proof (N.mul_div_le (h_gas_limit p) 1024 ltac:(lia)) as Hd.
    set (d := h_gas_limit p / 1024) in *. clearbody d. lia.
  Qed.

  (** Over [n] blocks of a chain: g' <= g * (1025/1024)^n and
      g' >= g * (1023/1024)^n. *)
  Theorem C32_steps l i n b1 b2 : linked l ->
    nth_error l i = Some b1 -> nth_error l (i + n) = Some b2 ->
    1024 ^ N.of_nat n * h_gas_limit (bl_header b2) <= 1025 ^ N.of_nat n * h_gas_limit (bl_header b1) /\
    1023 ^ N.of_nat n * h_gas_limit (bl_header b1) <= 1024 ^ N.of_nat n * h_gas_limit (bl_header b2).
  Proof.
    intros Hl E1. revert b2. induction n as [|n IH]; intros b2 E2.
    { rewrite Nat.add_0_r in E2. replace b2 with b1 by congruence. cbn. lia. }
    rewrite Nat.add_succ_r in E2.
    destruct (nth_error l (i + n)) as [b|] eqn:E.
    - destruct (IH b eq_refl) as [H1 H2]. destruct (C32_header _ _ (Hl _ _ _ E E2)) as (H3 & H4 & _).
      rewrite Nat2N.inj_succ, !N.pow_succ_r'.
      set (x := 1024 ^ N.of_nat n) in *. set (y := 1025 ^ N.of_nat n) in *. set (z := 1023 ^ N.of_nat n) in *.
      clearbody x y z. set (g := h_gas_limit (bl_header b)) in *. set (g1 := h_gas_limit (bl_header b1)) in *.
      set (g2 := h_gas_limit (bl_header b2)) in *. clearbody g g1 g2. clear E E2 IH E1 Hl. split; nia.
    - apply nth_error_None in E. assert (H : (S (i + n) < length l)%nat) by (apply nth_error_Some; congruence). lia.
  Qed.

  (** ** C38 *)
  Lemma nth_error_rev {A} (l : list A) i : (i < length l)%nat ->
    nth_error (rev l) i = nth_error l (length l - S i).
  Proof.
    intros H. destruct l as [|x l]; [cbn in H; lia|].
    rewrite (nth_error_nth' (rev (x :: l)) x) by (rewrite rev_length; lia).
    rewrite (nth_error_nth' (x :: l) x) by lia. by rewrite rev_nth.
  Qed.
  Lemma nth_error_drop {A} m k (x : list A) : nth_error (drop m x) k = nth_error x (m + k).
  Proof.
    revert m. induction x as [|y x IH]; intros m; [by rewrite drop_nil; destruct k, m|].
    destruct m; [done|]. cbn. by rewrite IH.
  Qed.

  (** The hashes given to the block after [l]. *)
  Lemma block_hashes_spec c0 c l h n :
    (exists g, bc_blocks c0 = [g] /\ h_number (bl_header g) = 0) -> history c0 c l ->
    validate_header cr c h = Done tt -> n < h_number h -> h_number h <= n + 256 ->
    h_number h = lenN l /\
    exists b, nth_error l (N.to_nat n) = Some b /\ h_number (bl_header b) = n /\
      nthN (rev (map from_be_bytes (get_last_256_block_hashes cr c))) (h_number h - n - 1)
      = Some (from_be_bytes (header_hash cr (bl_header b))).
  Proof.
    intros (g & Eg & Hg) Hh EV L1 L2.
    assert (H0 : lenN (bc_blocks c0) <= 255) by (by rewrite Eg).
    assert (HL0 : linked (bc_blocks c0)) by (rewrite Eg; intros i b1 b2 _ E2; by destruct i).
    pose proof (C37_linked _ _ _ H0 HL0 Hh) as Hl. destruct (C37_retained _ _ _ H0 Hh) as [Eb _].
    assert (Hfst : nth_error l 0 = Some g).
    { clear -Hh Eg. induction Hh as [|c l b c' Hh IH E|]; [by rewrite Eg| |done]. by destruct l. }
    assert (Hnum : forall i b, nth_error l i = Some b -> h_number (bl_header b) = N.of_nat i).
    { intros i b E. destruct (C37_numbers l 0 i g b Hl Hfst E) as [-> _]. lia. }
    apply validate_header_inv in EV as (p & Ep & Hf). rewrite Eb, last_lastN in Ep by done.
    assert (Ep' : nth_error l (length l - 1) = Some p).
    { clear -Ep. destruct l as [|x l _] using rev_ind; [done|]. rewrite last_snoc in Ep. injection Ep as <-.
      rewrite app_length. cbn. rewrite nth_error_app2 by lia.
      by replace (length l + 1 - 1 - length l)%nat with 0%nat by lia. }
    assert (Hlen : (1 <= length l)%nat) by (destruct l; [done|cbn; lia]).
    assert (HN : h_number h = lenN l).
    { rewrite (fo_number _ _ Hf). rewrite (Hnum _ _ Ep'). unfold lenN. lia. }
    split; [done|]. rewrite HN in L1, L2 |- *.
    destruct (nth_error l (N.to_nat n)) as [b|] eqn:En; [|apply nth_error_None in En; unfold lenN in L1; lia].
    exists b. split; [done|]. split; [rewrite (Hnum _ _ En); lia|].
    unfold get_last_256_block_hashes.
    replace (lastN 255 (bc_blocks c)) with (lastN 255 l).
    2:{ rewrite Eb. symmetry. apply lastN_short. rewrite lenN_lastN. lia. }
    rewrite last_lastN by done. rewrite Ep. rewrite map_app. rewrite rev_app_distr. cbn [map rev app].
    rewrite nthN_nth_error. destruct (N.to_nat (lenN l - n - 1)) as [|k] eqn:Ek; cbn [nth_error].
    { replace (N.to_nat n) with (length l - 1)%nat in En by (unfold lenN in *; lia). congruence. }
    rewrite map_map. rewrite nth_error_rev.
    2:{ rewrite map_length. unfold lastN. rewrite dropN_skipn, skipn_length. unfold lenN in *. lia. }
    rewrite map_length.
    assert (Hd : (length (lastN 255 l) = length l - N.to_nat (lenN l - 255))%nat).
    { unfold lastN. by rewrite dropN_skipn, skipn_length. }
    rewrite Hd. rewrite nth_error_map. unfold lastN. rewrite dropN_skipn, nth_error_drop.
    replace (N.to_nat (lenN l - 255) + (length l - N.to_nat (lenN l - 255) - S k))%nat with (S (N.to_nat n))
      by (unfold lenN in *; lia).
    destruct (nth_error l (S (N.to_nat n))) as [b'|] eqn:En'.
    2:{ apply nth_error_None in En'. unfold lenN in *. lia. }
    cbn. by rewrite (fo_parent _ _ (Hl _ _ _ En En')).
  Qed.

  (** In the block after an accepted history of blocks 0, 1, 2, ..., the
      instruction BLOCKHASH pushes the hash of the header of the requested
      block if that is one of the last 256, and 0 otherwise. It never fails
      but for lack of gas or operands. *)
  Theorem C38_blockhash c0 c l h e w n rest :
    (forall b, lenN (keccak256 cr b) <= 32) ->
    (exists g, bc_blocks c0 = [g] /\ h_number (bl_header g) = 0) -> history c0 c l ->
    validate_header cr c h = Done tt ->
    e_stack e = n :: rest -> 20 <= e_gas_left e -> lenN (e_stack e) <= 1024 ->
    exists v e',
      op_blockhash (block_env_of cr c h) e w = Ret tt e' w /\
      e_stack e' = v :: rest /\ e_gas_left e' = e_gas_left e - 20 /\ e_pc e' = e_pc e + 1 /\
      (n < lenN l -> lenN l <= n + 256 ->
         exists b, nth_error l (N.to_nat n) = Some b /\ h_number (bl_header b) = n /\
                   v = from_be_bytes (header_hash cr (bl_header b))) /\
      (lenN l <= n \/ n + 256 < lenN l -> v = 0).
  Proof.
    intros Hk Hg Hh EV Es Hgas Hlen.
    assert (HN : h_number h = lenN l).
    { destruct Hg as (g & Eg & Hg0).
      assert (H0 : lenN (bc_blocks c0) <= 255) by (by rewrite Eg).
      assert (HL0 : linked (bc_blocks c0)) by (rewrite Eg; intros i b1 b2 _ E2; by destruct i).
      assert (Hlt : 0 < h_number h) by (apply validate_header_inv in EV as (p & _ & Hf); destruct Hf; lia).
      destruct (block_hashes_spec c0 c l h (h_number h - 1)) as [H _]; try done; try lia. by exists g. }
    set (be := block_env_of cr c h).
    assert (Hop : forall v, v < 2 ^ 256 ->
      (if (b_number be <=? n) || (n + 256 <? b_number be) then v = 0
       else nthN (rev (b_block_hashes be)) (b_number be - n - 1) = Some v) ->
      exists e', op_blockhash be e w = Ret tt e' w /\
        e_stack e' = v :: rest /\ e_gas_left e' = e_gas_left e - 20 /\ e_pc e' = e_pc e + 1).
    { clear HN. destruct e. cbn in Es, Hgas, Hlen. subst e_stack. intros v Hv Hif.
      unfold op_blockhash, bind, pop, charge_gas, GAS_BLOCK_HASH.
      cbn -[b_number b_block_hashes N.ltb N.leb N.add N.sub cast push].
      destruct (N.ltb_spec e_gas_left 20); [lia|].
      change (2 ^ 256) with U256_CEIL in Hv.
      assert (Hc : forall e0 w0, cast v e0 w0 = Ret v e0 w0).
      { intros. unfold cast, Vm.lift, to_u256. destruct (N.ltb_spec v U256_CEIL); [done|lia]. }
      rewrite lenN_cons in Hlen.
      destruct ((b_number be <=? n) || _).
      - subst v. unfold ret. rewrite Hc. unfold push. cbn -[N.eqb N.sub N.add lenN].
        destruct (N.eqb_spec (lenN rest) 1024); [lia|]. by eexists.
      - rewrite Hif. unfold ret. rewrite Hc. unfold push. cbn -[N.eqb N.sub N.add lenN].
        destruct (N.eqb_spec (lenN rest) 1024); [lia|]. by eexists. }
    assert (Hnb : b_number be = lenN l) by exact HN.
    destruct (N.leb_spec (b_number be) n) as [L1|L1].
    { destruct (Hop 0 ltac:(done) eq_refl) as (e' & H1 & H2 & H3 & H4).
      exists 0, e'. split_and!; try done; lia. }
    destruct (N.ltb_spec (n + 256) (b_number be)) as [L2|L2].
    { destruct (Hop 0 ltac:(done) eq_refl) as (e' & H1 & H2 & H3 & H4).
      exists 0, e'. split_and!; try done; lia. }
    destruct (block_hashes_spec c0 c l h n Hg Hh EV L1 L2) as (_ & b & Eb & Hb & Hv).
    destruct (Hop (from_be_bytes (header_hash cr (bl_header b)))) as (e' & H1 & H2 & H3 & H4);
      [by apply (from_be_lt_32 _ (Hk _))|exact Hv|].
    eexists _, e'. split_and!; [done..| |lia]. intros _ _. by exists b.
  Qed.

  (** ** C39 *)

  (** A rejected block is not added, and nothing else but possibly the state
      changes. *)
  Theorem C39_blocks chain b e chain' : state_transition cr chain b = (Fail e, chain') ->
    bc_blocks chain' = bc_blocks chain /\ bc_chain_id chain' = bc_chain_id chain.
  Proof. apply transition_fail. Qed.

  (** A block rejected for its size (in Osaka), its header or its ommers changes
      nothing at all. *)
  Theorem C39_early chain b :
    (h_fork (bl_header b) = Osaka /\ MAX_RLP_BLOCK_SIZE < lenN (encode (block_rlp b))) \/
    (exists e, validate_header cr chain (bl_header b) = Fail e) \/ bl_ommers b <> [] ->
    exists e, state_transition cr chain b = (Fail e, chain).
  Proof.
    intros H. unfold state_transition.
    destruct (at_least Osaka (h_fork (bl_header b)) && (MAX_RLP_BLOCK_SIZE <? lenN (encode (block_rlp b)))) eqn:HS; [by eexists|].
    destruct (validate_header cr chain (bl_header b)) as [[]|] eqn:E; [|by eexists].
    destruct H as [[H1%is_osaka_spec H]|[[e H]|H]]; [rewrite H1 in HS; apply N.ltb_ge in HS; lia|done|]. destruct (bl_ommers b); [done|by eexists].
  Qed.
End Chain.

(** The state, however, may be left changed: the transactions are executed on
    it in place, before the results are compared with the header. Here the
    header has wrong roots; the sender's nonce has changed all the same. *)
Theorem C39_state_refuted : exists cr chain b a,
  fst (state_transition cr chain b) = Fail FInvalidBlock /\
  nonce (get_account (bc_state chain) a) = 0 /\
  nonce (get_account (bc_state (snd (state_transition cr chain b))) a) = 2.
Proof. exists ex_crypto, ex_chain, ex_open_block, 0xaaaa. vm_compute. repeat split. Qed.

(** The example chain: a block with two transactions and a withdrawal is
    accepted. *)
Example C37_nonvacuous :
  fst (state_transition ex_crypto ex_chain ex_block) = Done tt /\
  lenN (bc_blocks (snd (state_transition ex_crypto ex_chain ex_block))) = 2 /\
  lenN (bc_blocks ex_chain) <= 255 /\ linked ex_crypto (bc_blocks ex_chain).
Proof.
  split; [by vm_compute|]. split; [by vm_compute|]. split; [done|]. intros i b1 b2 _ E2. by destruct i.
Qed.

(** BLOCKHASH(0) in the block after genesis. *)
Definition ex_frame : evm :=
  set_stack [0] (init_evm (toy_message 0x200 1000 0 [] [Byte.x40])).
Example C38_nonvacuous :
  validate_header ex_crypto ex_chain (bl_header ex_block) = Done tt /\
  history ex_crypto ex_chain ex_chain [ex_genesis] /\
  match op_blockhash (block_env_of ex_crypto ex_chain (bl_header ex_block)) ex_frame
          (World ex_state empty_transient) with
  | Ret _ e _ => match e_stack e with
                 | [v] => (v =? from_be_bytes (header_hash ex_crypto (bl_header ex_genesis))) && negb (v =? 0)
                 | _ => false
                 end
  | _ => false
  end = true.
Proof. split; [by vm_compute|]. split; [apply h_start|by vm_compute]. Qed.

Definition PropChain_theorems :=
  (@C32_header, @C32_steps, @C37_retained, @C37_linked, @C37_chain, @C37_numbers, @C38_blockhash,
   @C39_blocks, @C39_early, @C39_state_refuted, @validate_header_inv, @transition_done).
Print Assumptions PropChain_theorems.
