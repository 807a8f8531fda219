(** * PropPowBody: the transactions of a proof-of-work block (C72). *)
From Verif Require Import Base State Rlp Vm Instructions Precompiles Interpreter StateSpec StateProofs
  Bloom Transactions Trie TrieProofs RlpProofs PropTrie Blocks Requests Fork ForkProofs NumericProofs TxProofs EvmExamples PropTx PropBlocks
  PropWithdrawals PropTransaction PropOuter PropCommit Pow PropOmmers PropRewards PowTx PropPowTx PropPowRun PropPowExamples.
From Verif Require PropTotal PropPow.
From Coq Require Import ZifyBool ZifyN ZifyNat.
Ltac Zify.zify_post_hook ::= idtac.

Local Opaque to_u256 from_be_bytes.

(** ** Vocabulary *)
Section Sequence.
  Context (cr : crypto) (n : pow_name) (env : pow_env)
    (evm : pow_env -> tx_env -> message -> sm call_output).
  Notation rules := (rules_of n).

  (** Transactions run one after the other; [g] is the gas used before. *)
  Inductive pow_sequence : N -> state -> list transaction -> list pow_receipt -> state -> Prop :=
  | PowSequence_nil g s : pow_sequence g s [] [] s
  | PowSequence_cons bo s tx txs sender price o s2 r rs s1 s' :
      known n tx -> pow_transacted cr n env evm bo tx s sender price o s2 r s1 ->
      pow_sequence (pr_cumulative_gas_used r) s1 txs rs s' ->
      pow_sequence (pbo_block_gas_used bo) s (tx :: txs) (r :: rs) s'.

  (** The gas used after these receipts *)
  Fixpoint gas_after (g : N) (rs : list pow_receipt) : N :=
    match rs with [] => g | r :: rs => gas_after (pr_cumulative_gas_used r) rs end.

  (** What the block keeps *)
  Fixpoint records (bo : pow_block_output) (i : N) (txs : list transaction) (rs : list pow_receipt)
    : pow_block_output :=
    match txs, rs with
    | tx :: txs, r :: rs => records (recorded bo tx i r) (i + 1) txs rs
    | _, _ => bo
    end.

  Lemma transacted_gas bo bo' tx s sender price o s2 r s' : pbo_block_gas_used bo = pbo_block_gas_used bo' ->
    pow_transacted cr n env evm bo tx s sender price o s2 r s' ->
    pow_transacted cr n env evm bo' tx s sender price o s2 r s'.
  Proof.
    intros E (te & m & V1 & V2 & [A1 A2 A3 A4 A5 A6 A7 A8] & R). rewrite E in *. exists te, m.
    split; [done|]. split; [done|]. split; [|exact R]. by constructor.
  Qed.
  Lemma recorded_gas bo tx i r : pbo_block_gas_used (recorded bo tx i r) = pr_cumulative_gas_used r.
  Proof. done. Qed.

  (** The loop over the transactions: every entry decodes, the transactions run in
      order, and the block keeps what they leave. *)
  Theorem C72_sequence etxs : forall bo i s bo' s',
    pow_process_transactions cr rules env evm bo etxs i s = (Done bo', s') <->
    exists txs rs, map (pow_decode_transaction rules) etxs = map Done txs /\
      pow_sequence (pbo_block_gas_used bo) s txs rs s' /\ bo' = records bo i txs rs.
  Proof.
    induction etxs as [|etx etxs IH]; intros bo i s bo' s'; cbn [pow_process_transactions map].
    - split.
      + intros H. apply sret_inv in H as [-> ->]. exists [], []. split; [done|]. split; [constructor|done].
      + intros ([|tx txs] & rs & [=] & H & ->). inversion H; subst. done.
    - split.
      + intros H. sm_step H. sm_step H. rename v into tx, v0 into bo1.
        pose proof (C69_known _ _ _ E) as Hk.
        apply C71_transaction in E0 as (sender & price & o & s2 & r & Ht & ->); [|done].
        apply IH in H as (txs & rs & H1 & H2 & ->).
        exists (tx :: txs), (r :: rs). split; [cbn; congruence|]. split; [|done].
        eapply PowSequence_cons; [done|exact Ht|done].
      + intros ([|tx txs] & rs & E & H & ->); [done|]. cbn [map] in E. injection E as E1 E2.
        inversion H as [|bo1 s0 tx0 txs0 sender price o s2 r rs0 s1 s0' Hk Ht HR Eg Es Etx Er]. subst.
        eapply sbind_go; [apply lift_done, E1|].
        eapply sbind_go.
        { apply C71_transaction; [done|]. exists sender, price, o, s2, r.
          split; [by eapply transacted_gas|done]. }
        apply IH. by exists txs, rs0.
  Qed.

  Lemma sequence_length g s txs rs s' : pow_sequence g s txs rs s' -> length rs = length txs.
  Proof. induction 1; cbn; lia. Qed.

  Lemma sequence_gas g s txs rs s' : pow_sequence g s txs rs s' -> g <= gas_after g rs.
  Proof.
    induction 1 as [g s|bo s tx txs sender price o s2 r rs s1 s' Hk Ht HR IH]; cbn [gas_after]; [done|].
    destruct Ht as (te & m & _ & _ & Ha & _ & _ & Ev & _ & _ & _ & _ & _ & _ & O1 & _). lia.
  Qed.

  (** The receipts: cumulative gas increases by what each transaction pays for,
      stays within the limit, and blooms are those of the logs. *)
  Theorem C72_gas g s txs rs s' : pow_sequence g s txs rs s' -> g <= pe_block_gas_limit env ->
    g <= gas_after g rs <= pe_block_gas_limit env /\
    gas_after g rs <= g + PropTx.sumN tx_gas txs /\
    Forall (fun r => pr_bloom r = logs_bloom cr (pr_logs r)) rs /\
    Forall (fun r => g <= pr_cumulative_gas_used r <= gas_after g rs) rs.
  Proof.
    induction 1 as [g s|bo s tx txs sender price o s2 r rs s1 s' Hk Ht HR IH]; intros Hg.
    { cbn. split; [lia|]. split; [lia|]. done. }
    destruct Ht as (te & m & _ & _ & Ha & _ & _ & _ & _ & _ & _ & _ & _ & _ & O1 & O2 & O3).
    pose proof (gas_paid_le n tx o) as Hu. pose proof (pa_gas _ _ _ _ _ _ _ _ Ha) as Hl.
    cbn [gas_after]. cbn [PropTx.sumN fold_right]. fold (PropTx.sumN tx_gas txs).
    destruct IH as (I1 & I2 & I3 & I4); [lia|]. split; [lia|]. split; [lia|]. split.
    - constructor; [congruence|done].
    - constructor; [lia|]. eapply Forall_impl; [exact I4|]. cbn. lia.
  Qed.

  (** Ether: if running code creates none, the transactions burn at least the
      base fee of the gas used and create none. *)
  Definition frugal : Prop := forall te m s o s',
    evm env te m s = (Done o, s') -> total_balance s' <= total_balance s.
  Theorem C72_no_mint g s txs rs s' : frugal -> pow_sequence g s txs rs s' ->
    total_balance s' + base_fee n env * (gas_after g rs - g) <= total_balance s.
  Proof.
    intros Hf. induction 1 as [g s|bo s tx txs sender price o s2 r rs s1 s' Hk Ht HR IH].
    { cbn [gas_after]. lia. }
    pose proof (C71_total _ _ _ _ _ _ _ _ _ _ _ _ _ Ht) as T. cbv zeta in T.
    destruct Ht as (te & m & _ & _ & Ha & _ & _ & Ev & _ & _ & _ & _ & _ & _ & O1 & _).
    apply Hf in Ev. pose proof (gas_paid_le n tx o) as Hu. cbn [gas_after].
    pose proof (sequence_gas _ _ _ _ _ HR) as Hc.
    revert IH Hc. generalize (gas_after (pr_cumulative_gas_used r) rs). intros z IH Hc. rewrite O1 in *.
    set (b := base_fee n env) in *. set (u := gas_paid n tx o) in *.
    assert (E : b * (z - pbo_block_gas_used bo) = b * (z - (pbo_block_gas_used bo + u)) + u * b).
    { rewrite (N.mul_comm u b), <- N.mul_add_distr_l. f_equal. lia. }
    lia.
  Qed.
  (** If moreover it loses none and nothing destroys itself, exactly the base
      fee is burnt. *)
  Definition exact : Prop := forall te m s o s',
    evm env te m s = (Done o, s') -> total_balance s' = total_balance s /\ co_accounts_to_delete o = ∅.
  Theorem C72_burn g s txs rs s' : exact -> pow_sequence g s txs rs s' ->
    total_balance s' + base_fee n env * (gas_after g rs - g) = total_balance s.
  Proof.
    intros Hf. induction 1 as [g s|bo s tx txs sender price o s2 r rs s1 s' Hk Ht HR IH].
    { cbn [gas_after]. lia. }
    pose proof (C71_total _ _ _ _ _ _ _ _ _ _ _ _ _ Ht) as T. cbv zeta in T.
    destruct Ht as (te & m & _ & _ & Ha & _ & _ & Ev & _ & _ & _ & _ & _ & _ & O1 & _).
    apply Hf in Ev as [Ev Ed]. rewrite Ed in T. pose proof (gas_paid_le n tx o) as Hu. cbn [gas_after].
    pose proof (sequence_gas _ _ _ _ _ HR) as Hc.
    revert IH Hc. generalize (gas_after (pr_cumulative_gas_used r) rs). intros z IH Hc. rewrite O1 in *.
    set (b := base_fee n env) in *. set (u := gas_paid n tx o) in *.
    assert (E : b * (z - pbo_block_gas_used bo) = b * (z - (pbo_block_gas_used bo + u)) + u * b).
    { rewrite (N.mul_comm u b), <- N.mul_add_distr_l. f_equal. lia. }
    unfold sum_over in T. rewrite elements_empty in T. cbn [fold_right] in T. lia.
  Qed.

  (** ** What the block keeps *)
  Lemma records_facts txs : forall rs bo i, length rs = length txs -> i + lenN txs < 2 ^ 256 ->
    trie_ok (pbo_transactions_trie bo) -> trie_ok (pbo_receipts_trie bo) ->
    let bo' := records bo i txs rs in
    pbo_block_gas_used bo' = gas_after (pbo_block_gas_used bo) rs /\
    pbo_block_logs bo' = pbo_block_logs bo ++ concat (map pr_logs rs) /\
    trie_ok (pbo_transactions_trie bo') /\ trie_ok (pbo_receipts_trie bo') /\
    (t_secured (pbo_transactions_trie bo') = t_secured (pbo_transactions_trie bo) /\
     t_default (pbo_transactions_trie bo') = t_default (pbo_transactions_trie bo) /\
     t_secured (pbo_receipts_trie bo') = t_secured (pbo_receipts_trie bo) /\
     t_default (pbo_receipts_trie bo') = t_default (pbo_receipts_trie bo)) /\
    (forall j tx r, nth_error txs j = Some tx -> nth_error rs j = Some r ->
       trie_get (pbo_transactions_trie bo') (encode (RUint (i + N.of_nat j))) = Some (encode_transaction tx) /\
       trie_get (pbo_receipts_trie bo') (encode (RUint (i + N.of_nat j))) = Some (pow_encode_receipt tx r)) /\
    (forall k, (forall j, (j < length txs)%nat -> k <> encode (RUint (i + N.of_nat j))) ->
       trie_get (pbo_transactions_trie bo') k = trie_get (pbo_transactions_trie bo) k /\
       trie_get (pbo_receipts_trie bo') k = trie_get (pbo_receipts_trie bo) k).
  Proof.
    clear. induction txs as [|tx txs IH]; intros [|r rs] bo i HL Hi O1 O2; cbn [length] in HL; try lia; cbn [records].
    { cbn [gas_after map concat]. rewrite app_nil_r. split_and!; try done. by intros [|j]. }
    rewrite lenN_cons in Hi.
    set (k0 := encode (RUint i)).
    destruct (trie_set_ok (pbo_transactions_trie bo) k0 (Some (encode_transaction tx)) O1) as (A1 & A2 & A3).
    destruct (trie_set_ok (pbo_receipts_trie bo) k0 (Some (pow_encode_receipt tx r)) O2) as (B1 & B2 & B3).
    destruct (IH rs (recorded bo tx i r) (i + 1)) as (H1 & H2 & H3 & H4 & (H5 & H6 & H7 & H8) & H9 & H10); [lia|lia|done|done|].
    set (bo' := records (recorded bo tx i r) (i + 1) txs rs) in *. clearbody bo'.
    assert (Hk : forall j, (j < length txs)%nat -> k0 <> encode (RUint (i + 1 + N.of_nat j))).
    { intros j Hj Ek. apply PropWithdrawals.index_key_inj in Ek; unfold lenN in Hi; lia. }
    split; [exact H1|]. split. { rewrite H2. cbn. by rewrite <- app_assoc. }
    split; [done|]. split; [done|]. split.
    { rewrite H5, H6, H7, H8. cbn. done. }
    split.
    { intros [|j] tx' r'; cbn [nth_error].
      - intros [= <-] [= <-]. replace (i + N.of_nat 0) with i by lia. fold k0.
        destruct (H10 k0 Hk) as [-> ->]. cbn [recorded pbo_transactions_trie pbo_receipts_trie]. fold k0.
        rewrite !trie_get_set by done. by rewrite !decide_True.
      - replace (i + N.of_nat (S j)) with (i + 1 + N.of_nat j) by lia. apply H9. }
    intros k Hkk.
    assert (Hk1 : forall j, (j < length txs)%nat -> k <> encode (RUint (i + 1 + N.of_nat j))).
    { intros j Hj. specialize (Hkk (S j)). replace (i + N.of_nat (S j)) with (i + 1 + N.of_nat j) in Hkk by lia.
      apply Hkk. cbn. lia. }
    assert (Hk2 : k0 <> k).
    { specialize (Hkk 0%nat). replace (i + N.of_nat 0) with i in Hkk by lia. intros <-. apply Hkk; [cbn; lia|done]. }
    destruct (H10 k Hk1) as [-> ->]. cbn [recorded pbo_transactions_trie pbo_receipts_trie]. fold k0.
    rewrite !trie_get_set by done. by rewrite !decide_False by done.
  Qed.
  Lemma records_hold txs rs : length rs = length txs -> lenN txs < 2 ^ 256 ->
    let bo := records empty_pow_block_output 0 txs rs in
    holds (pbo_transactions_trie bo) (map encode_transaction txs) /\
    holds (pbo_receipts_trie bo) (zip_with pow_encode_receipt txs rs).
  Proof.
    clear. intros HL Hi.
    assert (Hok : forall V `{EqDecision V}, trie_ok (Trie false (@None V) [])).
    { intros V ?. split; [constructor|done]. }
    destruct (records_facts txs rs empty_pow_block_output 0 HL Hi (Hok _ _) (Hok _ _)) as
      (_ & _ & H3 & H4 & (H5 & H6 & H7 & H8) & H9 & H10).
    set (bo := records _ _ _ _) in *. clearbody bo. split.
    - apply (holds_of (Trie false None [])); try done.
      + intros j v Hv. rewrite nth_error_map in Hv. destruct (nth_error txs j) as [tx|] eqn:Et; [|done].
        injection Hv as <-. destruct (nth_error rs j) as [r|] eqn:Er.
        * by apply (H9 j tx r).
        * apply nth_error_None in Er. assert (j < length txs)%nat by (apply nth_error_Some; congruence). lia.
      + rewrite map_length. intros k Hk. by apply H10.
    - assert (HZ : forall j, nth_error (zip_with pow_encode_receipt txs rs) j =
        match nth_error txs j, nth_error rs j with
        | Some tx, Some r => Some (pow_encode_receipt tx r) | _, _ => None end).
      { clear. revert rs. induction txs as [|tx txs IH]; intros [|r rs] [|j]; cbn; try done; try (by destruct (nth_error txs j)); apply IH. }
      apply (holds_of (Trie false None [])); try done.
      + intros j v. rewrite HZ. destruct (nth_error txs j) as [tx|] eqn:Et; [|done].
        destruct (nth_error rs j) as [r|] eqn:Er; [|done]. intros [= <-]. by apply (H9 j tx r).
      + intros k Hk. apply H10. intros j Hj. apply Hk. rewrite zip_with_length. lia.
  Qed.
End Sequence.

Section Block.
  Context (cr : crypto) (n : pow_name) (evm : pow_env -> tx_env -> message -> sm call_output).

  (** The environment of a block; the hashes are those of the last 256 blocks. *)
  Record describes (c : pow_chain encoded_tx) (h : pow_header) (env : pow_env) : Prop := {
    ds_chain_id : pe_chain_id env = pc_chain_id c;
    ds_gas_limit : pe_block_gas_limit env = ph_gas_limit h;
    ds_coinbase : pe_coinbase env = ph_coinbase h;
    ds_number : pe_number env = ph_number h;
    ds_time : pe_time env = ph_timestamp h;
    ds_difficulty : pe_difficulty env = ph_difficulty h;
    ds_base_fee : since London n = true -> ph_base_fee_per_gas h = Some (pe_base_fee_per_gas env);
    ds_hashes : forall l b, lastN 255 (pc_blocks c) = l ++ [b] -> pe_block_hashes env =
      map (fun b => ph_parent_hash (pb_header b)) (l ++ [b]) ++ [pow_hash cr (pb_header b)];
  }.
  Lemma describes_spec c h env : pow_env_of cr (rules_of n) c h = Done env -> describes c h env.
  Proof.
    unfold pow_env_of. rewrite london_rules. intros (b & Hb & H)%obind_inv. injection H as <-.
    constructor; cbn; try done.
    - intros E. rewrite E in Hb. unfold base_fee_of in Hb. destruct (ph_base_fee_per_gas h); [|done]. cbn in Hb. congruence.
    - intros l x E. unfold pow_last_256_block_hashes. rewrite E, last_snoc. done.
  Qed.

  Notation exec := (pow_execute cr (rules_of n) evm).

  (** Executing the transactions of a block. *)
  Theorem C72_execute c h etxs s out s' : lenN etxs < 2 ^ 256 ->
    exec c h etxs s = (Done out, s') ->
    exists env txs rs transactions receipts,
      describes c h env /\ map (pow_decode_transaction (rules_of n)) etxs = map Done txs /\
      pow_sequence cr n env evm 0 s txs rs s' /\
      po_gas_used out = gas_after 0 rs /\ po_gas_used out <= ph_gas_limit h /\
      holds transactions (map encode_transaction txs) /\
      root cr encode_tx_node transactions = Some (po_transactions_root out) /\
      holds receipts (zip_with pow_encode_receipt txs rs) /\
      root cr pow_encode_receipt_node receipts = Some (po_receipt_root out) /\
      po_bloom out = logs_bloom cr (concat (map pr_logs rs)).
  Proof.
    intros Hl H. unfold pow_execute in H. sm_step H. rename v into env. apply describes_spec in E as Hd.
    sm_step H. apply C72_sequence in E0 as (txs & rs & H1 & H2 & ->).
    sm_step H. sm_step H. sm_step H. subst out.
    pose proof (sequence_length _ _ _ _ _ _ _ _ _ H2) as HL.
    assert (Hlt : lenN txs < 2 ^ 256).
    { apply (f_equal length) in H1. rewrite !map_length in H1. unfold lenN in *. by rewrite <- H1. }
    destruct (records_hold txs rs HL Hlt) as [T1 T2].
    assert (Hok : forall V `{EqDecision V}, trie_ok (Trie false (@None V) [])).
    { intros V ?. split; [constructor|done]. }
    destruct (records_facts txs rs empty_pow_block_output 0 HL Hlt (Hok _ _) (Hok _ _)) as (G & L & _).
    exists env, txs, rs. eexists _, _. cbn [po_gas_used po_transactions_root po_receipt_root po_bloom].
    split; [done|]. split; [done|]. split; [exact H2|]. split; [exact G|]. split.
    { rewrite G. destruct (C72_gas _ _ _ _ _ _ _ _ _ H2) as [? _]; [apply N.le_0_l|].
      rewrite <- (ds_gas_limit _ _ _ Hd). cbn [pbo_block_gas_used empty_pow_block_output] in *. lia. }
    split; [exact T1|]. split.
    { destruct (root cr encode_tx_node _); [|done]. cbn in E0. congruence. }
    split; [exact T2|]. split.
    { destruct (root cr pow_encode_receipt_node _); [|done]. cbn in E1. congruence. }
    rewrite L. done.
  Qed.

  (** An accepted block: the header commits to the gas used, the transactions, the
      receipts and the logs, and the state is that after the transactions with
      the rewards added. *)
  Theorem C72_block k512 c b c' : lenN (pb_transactions b) < 2 ^ 256 ->
    pow_state_transition cr k512 n evm c b = (Done tt, c') ->
    exists env txs rs transactions receipts s, let h := pb_header b in
      let rewards := payments (pf_block_reward (fork_of n)) (ph_number h) (ph_coinbase h) (pb_ommers b) in
      describes c h env /\
      map (pow_decode_transaction (rules_of n)) (pb_transactions b) = map Done txs /\
      pow_sequence cr n env evm 0 (pc_state c) txs rs s /\
      ph_gas_used h = gas_after 0 rs /\ ph_gas_used h <= ph_gas_limit h /\
      holds transactions (map encode_transaction txs) /\
      root cr encode_tx_node transactions = Some (ph_transactions_root h) /\
      holds receipts (zip_with pow_encode_receipt txs rs) /\
      root cr pow_encode_receipt_node receipts = Some (ph_receipt_root h) /\
      ph_bloom h = logs_bloom cr (concat (map pr_logs rs)) /\
      credited s (pc_state c') rewards /\
      state_root cr (pc_state c') = Some (ph_state_root h) /\
      (* the supply *)
      (frugal env evm -> total_balance (pc_state c') + base_fee n env * ph_gas_used h
         <= total_balance (pc_state c) + paid rewards) /\
      (exact env evm -> total_balance (pc_state c') + base_fee n env * ph_gas_used h
         = total_balance (pc_state c) + paid rewards).
  Proof.
    intros Hl H. unfold pow_state_transition in H. pose proof H as H'.
    apply C65_block in H' as (out & s & He & Hc & Ht & _).
    apply PropOmmers.transition_done in H as (_ & _ & (out' & Ha & A1 & A2 & A3 & A4 & A5) & _).
    assert (out' = out) as ->.
    { unfold apply_body in Ha. unfold sbind at 1 in Ha. rewrite He in Ha.
      apply sbind_inv in Ha as ([] & s1 & _ & Ha). by apply sret_inv in Ha as [-> _]. }
    apply C72_execute in He as (env & txs & rs & tt & rt & H1 & H2 & H3 & H4 & H5 & H6 & H7 & H8 & H9 & H10); [|done].
    exists env, txs, rs, tt, rt, s. cbv zeta. rewrite A1 in *. rewrite A2 in *. rewrite A4 in *. rewrite A5 in *.
    split; [done|]. split; [done|]. split; [done|]. split; [done|]. split; [done|]. split; [done|].
    split; [done|]. split; [done|]. split; [done|]. split; [done|]. split; [done|]. split; [done|].
    split; intros Hf; rewrite Ht, H4.
    - pose proof (C72_no_mint _ _ _ _ _ _ _ _ _ Hf H3) as T. rewrite N.sub_0_r in T. lia.
    - pose proof (C72_burn _ _ _ _ _ _ _ _ _ Hf H3) as T. rewrite N.sub_0_r in T. lia.
  Qed.

  (** The roots of two blocks commit to their transactions: equal roots mean equal
      transactions, or a collision among the inputs hashed for the two roots. *)
  Theorem C72_commits c1 h1 e1 s1 out1 s1' c2 h2 e2 s2 out2 s2' :
    (forall x, length (keccak256 cr x) = 32%nat) -> lenN e1 < 2 ^ 256 -> lenN e2 < 2 ^ 256 ->
    exec c1 h1 e1 s1 = (Done out1, s1') -> exec c2 h2 e2 s2 = (Done out2, s2') ->
    exists txs1 txs2 t1 t2, map (pow_decode_transaction (rules_of n)) e1 = map Done txs1 /\
      map (pow_decode_transaction (rules_of n)) e2 = map Done txs2 /\
      holds t1 (map encode_transaction txs1) /\ holds t2 (map encode_transaction txs2) /\
      (Forall (fun tx => typed_tx tx /\ lenN (wire tx) < 2 ^ 58) (txs1 ++ txs2) ->
       po_transactions_root out1 = po_transactions_root out2 ->
       txs1 = txs2 \/ collides cr (fun x => hashes cr encode_tx_node t1 x \/ hashes cr encode_tx_node t2 x)).
  Proof.
    intros K L1 L2 X1 X2.
    apply C72_execute in X1 as (env1 & txs1 & rs1 & t1 & r1 & _ & D1 & _ & _ & _ & T1 & R1 & _); [|done].
    apply C72_execute in X2 as (env2 & txs2 & rs2 & t2 & r2 & _ & D2 & _ & _ & _ & T2 & R2 & _); [|done].
    exists txs1, txs2, t1, t2. split; [done|]. split; [done|]. split; [done|]. split; [done|]. intros Hs Er. apply Forall_app in Hs as [S1 S2].
    set (e := fun v => encode_tx_node [] (Some v)).
    assert (Ew : forall tx, e (encode_transaction tx) = wire tx).
    { intros tx. unfold e, wire. by destruct tx. }
    assert (Hlen : forall es (txs : list transaction), map (pow_decode_transaction (rules_of n)) es = map Done txs ->
      lenN (map encode_transaction txs) = lenN es).
    { intros es txs D. apply (f_equal length) in D. rewrite !map_length in D. unfold lenN. rewrite map_length. lia. }
    assert (HF : forall txs, Forall (fun tx => typed_tx tx /\ lenN (wire tx) < 2 ^ 58) txs ->
      Forall (fun v => e v <> [] /\ lenN (e v) < 2 ^ 58) (map encode_transaction txs)).
    { intros txs Hs. apply Forall_map. eapply Forall_impl; [exact Hs|]. intros tx [_ Hw]; cbn beta. rewrite Ew.
      split; [|done]. unfold wire. destruct tx as [t|t|t|t|t]; cbn [encode_transaction]; try done.
      apply PropTotal.encode_not_nil. }
    assert (N1 : lenN (map encode_transaction txs1) < 2 ^ 256) by (by rewrite (Hlen e1)).
    assert (N2 : lenN (map encode_transaction txs2) < 2 ^ 256) by (by rewrite (Hlen e2)).
    rewrite Er in R1.
    destruct (holds_commit cr K encode_tx_node e t1 t2 _ _ _ (fun k v => eq_refl) T1 T2 N1 N2
      (HF _ S1) (HF _ S2) R1 R2) as [HE|HC].
    - left. rewrite !map_map in HE. clear -HE S1 S2 Ew. revert txs2 HE S2.
      induction txs1 as [|x l IH]; intros [|y l2] HE S2; cbn [map] in HE; try done.
      injection HE as E1 E2. apply Forall_cons in S1 as [[A1 A2] S1]. apply Forall_cons in S2 as [[B1 B2] S2].
      f_equal; [|by apply IH]. rewrite !Ew in E1.
      assert (2 ^ 58 < 2 ^ 64) by done. apply C28_injective; try done; lia.
    - by right.
  Qed.
End Block.

(** ** Receipts *)

(** The bytes of a receipt: the type of the transaction, then state root or
    status, cumulative gas, bloom and logs. *)
Definition receipt_bytes (tx : transaction) (r : pow_receipt) : bytes :=
  match tx with AccessList _ => bs [1] | FeeMarket _ => bs [2] | _ => [] end ++
  encode (RList [
    RBytes (match pr_outcome r with
            | PostState root => root | Succeeded true => bs [1] | Succeeded false => []
            end);
    RUint (pr_cumulative_gas_used r); RBytes (pr_bloom r);
    RList (map (fun l => RList [RAddress (log_address l); RList (map RBytes32 (log_topics l)); RBytes (log_data l)])
             (pr_logs r))]).
Theorem C72_receipt_bytes k tx r :
  pow_encode_receipt_node k (Some (pow_encode_receipt tx r)) = receipt_bytes tx r.
Proof. destruct r as [o g b l], tx, o as [|[]]; reflexivity. Qed.

Definition typed_pow_receipt (r : pow_receipt) : Prop :=
  lenN (pr_bloom r) = 256 /\ Forall typed_log (pr_logs r) /\
  match pr_outcome r with PostState root => lenN root = 32 | Succeeded _ => True end.
(** They determine the receipt and the type. *)
Theorem C72_receipt_injective n tx1 tx2 r1 r2 : known n tx1 -> known n tx2 ->
  typed_pow_receipt r1 -> typed_pow_receipt r2 ->
  lenN (receipt_bytes tx1 r1) < 2 ^ 64 -> lenN (receipt_bytes tx2 r2) < 2 ^ 64 ->
  receipt_bytes tx1 r1 = receipt_bytes tx2 r2 -> r1 = r2 /\ tx_type tx1 = tx_type tx2.
Proof.
  intros K1 K2 T1 T2 L1 L2 E.
  set (body r := RList [
    RBytes (match pr_outcome r with
            | PostState root => root | Succeeded true => bs [1] | Succeeded false => []
            end);
    RUint (pr_cumulative_gas_used r); RBytes (pr_bloom r);
    RList (map log_rlp (pr_logs r))]).
  assert (HB : forall tx r, receipt_bytes tx r =
    match tx with AccessList _ => bs [1] | FeeMarket _ => bs [2] | _ => [] end ++ encode (body r)) by done.
  assert (HI : fits (body r1) -> fits (body r2) -> encode (body r1) = encode (body r2) -> r1 = r2).
  { intros F1 F2 EE. apply encode_inj in EE; [|done..]. unfold body in EE. injection EE as E1 E2 E3 E4.
    assert (E4' : RList (map log_rlp (pr_logs r1)) = RList (map log_rlp (pr_logs r2))) by (by rewrite E4).
    apply (f_equal (d_list d_log)) in E4'. destruct T1 as (T1a & T1b & T1c), T2 as (T2a & T2b & T2c).
    rewrite !d_list_ok in E4' by (eapply Forall_impl; [eassumption|apply d_log_ok]).
    assert (E2' : RUint (pr_cumulative_gas_used r1) = RUint (pr_cumulative_gas_used r2)) by (unfold RUint; by rewrite E2).
    apply (f_equal d_uint) in E2'. rewrite !d_uint_ok in E2'.
    destruct r1 as [o1 g1 b1 l1], r2 as [o2 g2 b2 l2]. cbn [pr_outcome pr_cumulative_gas_used pr_bloom pr_logs] in *.
    f_equal; try congruence.
    destruct o1 as [x|[]], o2 as [y|[]]; try done; try congruence; subst; cbn in T1c, T2c; done. }
  assert (HH : forall r (b : Byte.byte) l, fits (body r) -> encode (body r) = b :: l -> 192 <= Byte.to_N b).
  { intros r b l F Eb. destruct (encode_list_head _ F) as (b' & l' & E' & H').
    unfold body in Eb. rewrite E' in Eb. injection Eb as -> _. lia. }
  rewrite !HB in *. rewrite lenN_app in L1, L2.
  assert (F1 : fits (body r1)) by (unfold fits; lia). assert (F2 : fits (body r2)) by (unfold fits; lia).
  specialize (HI F1 F2). specialize (fun r b l => HH r b l). clear HB L1 L2. clearbody body.
  destruct tx1, tx2; cbn [known] in K1, K2; try done; cbn [tx_type]; cbn [app bs map] in E;
    try (split; [apply HI; first [exact E|by injection E]|reflexivity]).
  all: exfalso; try discriminate E.
  all: try (apply HH in E; [by compute in E|done]).
  all: symmetry in E; apply HH in E; [by compute in E|done].
Qed.


(** Equal receipts roots mean equal receipts, or a collision. *)
Theorem C72_commits_receipts cr n evm c1 h1 e1 s1 out1 s1' c2 h2 e2 s2 out2 s2' :
  let exec := pow_execute cr (rules_of n) evm in
  (forall x, length (keccak256 cr x) = 32%nat) -> lenN e1 < 2 ^ 256 -> lenN e2 < 2 ^ 256 ->
  exec c1 h1 e1 s1 = (Done out1, s1') -> exec c2 h2 e2 s2 = (Done out2, s2') ->
  exists env1 env2 txs1 txs2 rs1 rs2 t1 t2,
    pow_sequence cr n env1 evm 0 s1 txs1 rs1 s1' /\ pow_sequence cr n env2 evm 0 s2 txs2 rs2 s2' /\
    holds t1 (zip_with pow_encode_receipt txs1 rs1) /\ holds t2 (zip_with pow_encode_receipt txs2 rs2) /\
    (Forall (fun b => lenN b < 2 ^ 58) (zip_with receipt_bytes txs1 rs1 ++ zip_with receipt_bytes txs2 rs2) ->
     po_receipt_root out1 = po_receipt_root out2 ->
     zip_with receipt_bytes txs1 rs1 = zip_with receipt_bytes txs2 rs2 \/
     collides cr (fun x => hashes cr pow_encode_receipt_node t1 x \/ hashes cr pow_encode_receipt_node t2 x)).
Proof.
  intros exec K L1 L2 X1 X2.
  apply C72_execute in X1 as (env1 & txs1 & rs1 & u1 & t1 & _ & D1 & Q1 & _ & _ & _ & _ & T1 & R1 & _); [|done].
  apply C72_execute in X2 as (env2 & txs2 & rs2 & u2 & t2 & _ & D2 & Q2 & _ & _ & _ & _ & T2 & R2 & _); [|done].
  exists env1, env2, txs1, txs2, rs1, rs2, t1, t2. split; [done|]. split; [done|]. split; [done|]. split; [done|].
  intros Hs Er. apply Forall_app in Hs as [S1 S2].
  set (e := fun v => pow_encode_receipt_node [] (Some v)).
  assert (Hz : forall txs rs, map e (zip_with pow_encode_receipt txs rs) = zip_with receipt_bytes txs rs).
  { induction txs as [|tx txs IH]; intros [|r rs]; [done..|]. cbn [zip_with map]. unfold e at 1.
    by rewrite C72_receipt_bytes, IH. }
  assert (HL : forall es (txs : list transaction) rs, map (pow_decode_transaction (rules_of n)) es = map Done txs ->
    lenN es < 2 ^ 256 -> lenN (zip_with pow_encode_receipt txs rs) < 2 ^ 256).
  { intros es txs rs D. apply (f_equal length) in D. rewrite !map_length in D. unfold lenN.
    rewrite zip_with_length, <- D. lia. }
  assert (HF : forall txs rs, Forall (fun b => lenN b < 2 ^ 58) (zip_with receipt_bytes txs rs) ->
    Forall (fun v => e v <> [] /\ lenN (e v) < 2 ^ 58) (zip_with pow_encode_receipt txs rs)).
  { induction txs as [|tx txs IH]; intros [|r rs]; cbn [zip_with]; try (intros; constructor).
    - apply Forall_cons in H as [H _]. unfold e. rewrite C72_receipt_bytes. split; [|done].
      unfold receipt_bytes. intros N%app_nil. destruct N as [_ N]. by apply PropTotal.encode_not_nil in N.
    - apply Forall_cons in H as [_ H]. by apply IH. }
  rewrite Er in R1.
  destruct (holds_commit cr K pow_encode_receipt_node e t1 t2 _ _ _ (fun k v => eq_refl) T1 T2
    (HL _ _ _ D1 L1) (HL _ _ _ D2 L2) (HF _ _ S1) (HF _ _ S2) R1 R2) as [HE|HC].
  - left. by rewrite !Hz in HE.
  - by right.
Qed.

(** ** The rules of the forks *)

(** EIP-2, EIP-649, EIP-1234, EIP-2384, EIP-3554, EIP-4345, EIP-5133: block
    rewards and the delays of the difficulty bomb; EIP-1559: the base fee. *)
Theorem C72_fork_rules n :
  pf_block_reward (fork_of n) =
    (if since Constantinople n then 2 else if since Byzantium n then 3 else 5) * 10 ^ 18 /\
  pf_rule (fork_of n) =
    (if since GrayGlacier n then ByzantiumRule 11400000
     else if since ArrowGlacier n then ByzantiumRule 10700000
     else if since London n then ByzantiumRule 9700000
     else if since MuirGlacier n then ByzantiumRule 9000000
     else if since Constantinople n then ByzantiumRule 5000000
     else if since Byzantium n then ByzantiumRule 3000000
     else if since Homestead n then HomesteadRule else FrontierRule) /\
  pf_base_fee (fork_of n) = since London n /\
  (forall k, pf_dao_block (fork_of n) = Some k <-> n = DaoFork /\ k = 1920000) /\
  (forall k, pf_london_block (fork_of n) = Some k <-> n = London /\ k = 12965000).
Proof.
  split; [by destruct n|]. split; [by destruct n|]. split; [by destruct n|].
  split; intros k; destruct n; cbn; split; try (by intros [=]; subst); try (by intros [[=] ->]); by intros [_ ->].
Qed.

(** ** The hashes of earlier blocks *)

(** If every block names its predecessor, the [j]th last entry is the hash of
    the [j]th last block. *)
Definition linked (cr : crypto) {tx} (blocks : list (pow_block tx)) : Prop :=
  forall i b c, nth_error blocks i = Some b -> nth_error blocks (S i) = Some c ->
    ph_parent_hash (pb_header c) = pow_hash cr (pb_header b).
Theorem C72_hashes cr n c h env j b : describes cr n c h env -> linked cr (pc_blocks c) ->
  (j < 256)%nat -> nth_error (rev (pc_blocks c)) j = Some b ->
  nth_error (rev (pe_block_hashes env)) j = Some (keccak256 cr (encode (PropPow.listed (pb_header b)))).
Proof.
  intros Hd Hl Hj Hb. rewrite PropPow.listed_eq.
  pose proof (ds_hashes _ _ _ _ _ Hd) as Hh. clear Hd.
  destruct (pc_blocks c) as [|x bs] using rev_ind; [by destruct j|]. clear IHbs.
  assert (EL : lastN 255 (bs ++ [x]) = rev (firstn 254 (rev bs)) ++ [x]).
  { unfold lastN. rewrite dropN_skipn. rewrite lenN_app. change (lenN [x]) with 1.
    replace (N.to_nat (lenN bs + 1 - 255)) with (length bs - 254)%nat by (unfold lenN; lia).
    rewrite skipn_app. replace (length bs - 254 - length bs)%nat with 0%nat by lia. cbn [skipn]. f_equal.
    rewrite firstn_rev, rev_involutive. done. }
  rewrite (Hh _ _ EL). rewrite rev_app_distr, <- map_rev, rev_app_distr, rev_involutive.
  rewrite rev_app_distr in Hb. cbn [rev app map] in Hb |- *.
  destruct j as [|j]; cbn [nth_error] in Hb |- *; [by injection Hb as ->|].
  assert (HP : forall k (y z : pow_block encoded_tx), nth_error (x :: rev bs) k = Some y ->
    nth_error (x :: rev bs) (S k) = Some z -> ph_parent_hash (pb_header y) = pow_hash cr (pb_header z)).
  { intros k y z Hy Hz. change (x :: rev bs) with (rev [x] ++ rev bs) in Hy, Hz. rewrite <- rev_app_distr in Hy, Hz.
    assert (S k < length (bs ++ [x]))%nat. { rewrite <- rev_length. apply nth_error_Some. congruence. }
    set (l := bs ++ [x]) in *.
    assert (HR : forall k y, (k < length l)%nat -> nth_error (rev l) k = Some y -> nth_error l (length l - S k) = Some y).
    { clear. intros k y Hk H. rewrite <- (rev_involutive l) at 1.
      rewrite (nth_error_nth' (rev l) y) in H by (by rewrite rev_length).
      rewrite (nth_error_nth' _ y) by (rewrite !rev_length; lia).
      rewrite rev_nth by (rewrite rev_length; lia). rewrite rev_length.
      replace (length l - S (length l - S k))%nat with k by lia. done. }
    apply HR in Hy; [|lia]. apply HR in Hz; [|lia].
    replace (length l - S k)%nat with (S (length l - S (S k)))%nat in Hy by lia.
    by apply (Hl _ _ _ Hz Hy). }
  assert (Hs : exists y, nth_error (x :: rev bs) j = Some y).
  { destruct (nth_error (x :: rev bs) j) eqn:E; [by eexists|]. apply nth_error_None in E. cbn in E.
    assert (nth_error (rev bs) j <> None) as G%nth_error_Some by congruence. lia. }
  destruct Hs as [y Hy]. fold (pow_hash cr (pb_header b)). rewrite <- (HP j y b Hy Hb).
  rewrite <- (map_cons (fun b : pow_block encoded_tx => ph_parent_hash (pb_header b)) x).
  rewrite nth_error_map. change (x :: firstn 254 (rev bs)) with (firstn 255 (x :: rev bs)).
  assert (HF : forall (l : list (pow_block encoded_tx)) m k, (k < m)%nat -> nth_error (firstn m l) k = nth_error l k).
  { clear. induction l as [|a l IH]; intros [|m] [|k] Hk; cbn; try done; try lia. apply IH. lia. }
  rewrite HF by lia. by rewrite Hy.
Qed.

(** ** Concrete cases *)

(** The transfers of [transfer_evm] neither create nor lose ether. *)
Lemma transfer_exact env : exact env transfer_evm.
Proof.
  intros te m s o s' H. unfold transfer_evm in H. sm_step H. sm_step H. subst.
  split; [|done]. revert E. unfold move_ether_pow, modify_account, reduce_sender_balance.
  destruct (N.ltb_spec (balance (get_account s (m_caller m))) (m_value m)) as [|Hv]; [done|].
  unfold increase_recipient_balance. set (acc := Account _ _ _).
  destruct (_ <? U256_CEIL); [|done]. intros E. apply Ok_inj in E. subst.
  pose proof (total_set_account s (m_caller m) (Some acc)) as T1. cbn [bal_opt] in T1.
  match goal with |- total_balance (set_account ?s1 _ (Some ?v)) = _ =>
    pose proof (total_set_account s1 (m_current_target m) (Some v)) as T2 end.
  cbn [bal_opt balance] in T2. change (balance acc) with (balance (get_account s (m_caller m)) - m_value m) in T1.
  lia.
Qed.

(** A Byzantium block with two transfers, the first of them to the miner *)
Definition pay_sender : address :=
  from_be_bytes (sliceN 12 32 (keccak256 easy_crypto (zeros 12 ++ to_be_bytes20 11))).
Definition pay_txs : list encoded_tx :=
  [ELegacy (LegacyTx 0 2 21000 (Some 0xc1) 50 [] 27 11 12);
   ELegacy (LegacyTx 1 3 25000 (Some 0xdd) 7 (bs [1]) 28 11 13)].
Definition pay_genesis : pow_block encoded_tx :=
  PowBlock (PowHeader (zeros 32) easy_empty 0 (zeros 32) [] [] [] 131072 0 50000 0 1000 []
              (zeros 32) (zeros 8) None) [] [].
Definition pay_chain : pow_chain encoded_tx :=
  PowChain [pay_genesis] (toy_state [(pay_sender, Account 0 200000 [])] ∅) 1.
Definition pay_block : pow_block encoded_tx :=
  Eval vm_compute in
  let h root used tr rr bloom := PowHeader (pow_hash easy_crypto (pb_header pay_genesis)) easy_empty 0xc1 root
    tr rr bloom 131072 1 50000 used 1010 [] (zeros 32) (zeros 8) None in
  let b root used tr rr bloom := PowBlock (h root used tr rr bloom) pay_txs [] in
  match apply_body (fork_of Byzantium) (pow_execute easy_crypto (rules_of Byzantium) transfer_evm) pay_chain
          (b [] 0 [] [] []) (pc_state pay_chain) with
  | (Done o, s) => b (default [] (state_root easy_crypto s)) (po_gas_used o) (po_transactions_root o)
                     (po_receipt_root o) (po_bloom o)
  | _ => b [] 0 [] [] []
  end.
Definition pay_after : pow_chain encoded_tx :=
  snd (fast_transition easy_crypto (fork_of Byzantium)
         (pow_execute easy_crypto (rules_of Byzantium) transfer_evm) pay_chain pay_block).
Example C72_nonvacuous :
  pow_state_transition easy_crypto zero512 Byzantium transfer_evm pay_chain pay_block = (Done tt, pay_after) /\
  lenN (pb_transactions pay_block) < 2 ^ 256 /\
  ph_gas_used (pb_header pay_block) = 42068 /\
  map (fun a => balance (get_account (pc_state pay_after) a)) [pay_sender; 0xc1; 0xdd]
    = [200000 - 42000 - 63204 - 57; 42000 + 63204 + 50 + 3 * ETHER; 7].
Proof.
  split.
  { unfold pow_state_transition. rewrite transition_fast; [|easy_worked|constructor].
    unfold pay_after. apply injective_projections; vm_compute; reflexivity. }
  vm_compute. repeat split.
Qed.

Definition PropPowBody_theorems :=
  (@C72_sequence, @C72_gas, @C72_no_mint, @C72_burn, @C72_execute, @C72_block, @C72_commits,
   @C72_receipt_bytes, @C72_receipt_injective, @C72_commits_receipts, @C72_fork_rules, @C72_hashes, @transfer_exact).
Print Assumptions PropPowBody_theorems.
