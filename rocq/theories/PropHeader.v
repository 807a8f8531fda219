(** * PropHeader: C54, exactly which headers and blocks are accepted. *)
From Verif Require Import Base State Rlp Vm Instructions Precompiles Interpreter StateSpec StateProofs
  NumericProofs Trie Bloom Transactions Blocks Requests Fork PropFees ForkProofs EvmStep EvmExamples ForkExamples
  PropChain.
From Coq Require Import ZifyBool ZifyN ZifyNat.
Ltac Zify.zify_post_hook ::= idtac.

(** ** Reference *)

(** The base fee after a parent with this gas limit, gas used and base fee. *)
Definition child_base_fee (p : header) (fee : N) : Prop :=
  let target := h_gas_limit p / 2 in
  let parent_fee := h_base_fee_per_gas p in
  if h_gas_used p <=? target
  then fee = parent_fee - parent_fee * (target - h_gas_used p) / (8 * target)
  else fee = parent_fee + N.max 1 (parent_fee * (h_gas_used p - target) / (8 * target)).

Section Header.
  Context (cr : crypto).

  (** A header that may follow [p]. *)
  Record child (p h : header) : Prop := {
    ch_number : h_number h = h_number p + 1;
    ch_parent : h_parent_hash h = keccak256 cr (encode (header_rlp p));
    ch_time : h_timestamp p < h_timestamp h;
    ch_gas : h_gas_used h <= h_gas_limit h;
    ch_minimum : 5000 <= h_gas_limit h;
    ch_above : h_gas_limit h < h_gas_limit p + h_gas_limit p / 1024;
    ch_below : h_gas_limit p < h_gas_limit h + h_gas_limit p / 1024;
    ch_fee : child_base_fee p (h_base_fee_per_gas h);
    ch_excess : has_blobs (h_fork h) -> child_excess (h_fork h) p (h_excess_blob_gas h);
    ch_extra : lenN (h_extra_data h) <= 32;
    ch_difficulty : h_difficulty h = 0;
    ch_nonce : h_nonce h = zeros 8;
    ch_ommers : h_ommers_hash h = keccak256 cr (encode (RList []));
  }.

  (** The blob gas counters of the parent are far from the limits of their
      64-bit type (always, after an accepted block). *)
  Definition moderate (p : header) : Prop :=
    h_excess_blob_gas p + h_blob_gas_used p < 2 ^ 64 /\ 3 * h_blob_gas_used p < 2 ^ 64.

  Lemma check_limit_spec g p : check_gas_limit g p = true <->
    5000 <= g /\ g < p + p / 1024 /\ p < g + p / 1024.
  Proof.
    pose proof (check_gas_limit_true g p) as H1. split.
    - intros H%H1. lia.
    - intros (A & B & C). unfold check_gas_limit, GAS_LIMIT_ADJUSTMENT_FACTOR, GAS_LIMIT_MINIMUM.
      destruct (N.leb_spec (p + p / 1024) g); [lia|]. destruct (N.leb_spec g (p - p / 1024)); [lia|].
      by destruct (N.ltb_spec g 5000); [lia|].
  Qed.
  Lemma child_excess_fun f p x y : child_excess f p x -> child_excess f p y -> x = y.
  Proof.
    intros (a & Ha & ->) (b & Hb & ->). apply C33_value in Ha, Hb. rewrite Ha in Hb. by injection Hb as ->.
  Qed.

  (** A header is either accepted, when it is a child of the last block's, or
      it is invalid; nothing else happens. *)
  Theorem C54_header chain p h : last (bc_blocks chain) = Some p -> moderate (bl_header p) ->
    (child (bl_header p) h /\ validate_header cr chain h = Done tt) \/
    (~ child (bl_header p) h /\ validate_header cr chain h = Fail FInvalidBlock).
  Proof.
    intros Hp [M1 M2]. set (q := bl_header p) in *. unfold validate_header. rewrite Hp. cbn [of_option].
    destruct (C33_excess_total (h_fork h) q M1 M2) as (x & Hx). pose proof (C33_excess_value _ _ _ Hx) as Hcx.
    assert (Hchk : forall (P : Prop) (b : bool) (k : outcome unit) (R : Prop), (b = true <-> P) ->
      (R -> P) -> (P -> R /\ k = Done tt \/ ~ R /\ k = Fail FInvalidBlock) ->
      R /\ (_ <~ check b ;; k) = Done tt \/ ~ R /\ (_ <~ check b ;; k) = Fail FInvalidBlock).
    { intros P b k R Hb HR Hk. destruct b; cbn [check obind].
      - apply Hk. by apply Hb.
      - right. split; [|done]. intros HR'%HR%Hb. done. }
    eapply (Hchk (1 <= h_number h)); [apply N.leb_le|intros []; lia|intros P1]. cbn [obind].
    fold q. rewrite Hx. cbn [obind].
    assert ((if at_least Cancun (h_fork h) then check (h_excess_blob_gas h =? x) else Done tt)
      = check (negb (at_least Cancun (h_fork h)) || (h_excess_blob_gas h =? x))) as -> by (by destruct (at_least _ _)).
    eapply (Hchk (has_blobs (h_fork h) -> h_excess_blob_gas h = x)).
    { rewrite orb_true_iff, negb_true_iff, N.eqb_eq. rewrite <- has_blobs_spec.
      destruct (at_least Cancun (h_fork h)); intuition congruence. }
    { intros [] Hb. by eapply child_excess_fun; [apply ch_excess0|]. }
    intros P2.
    eapply (Hchk (h_gas_used h <= h_gas_limit h)); [apply N.leb_le|by intros []|intros P3].
    destruct (check_gas_limit (h_gas_limit h) (h_gas_limit q)) eqn:Ecl.
    2:{ right. split.
        - intros []. assert (check_gas_limit (h_gas_limit h) (h_gas_limit q) = true); [|congruence].
          by apply check_limit_spec.
        - unfold calculate_base_fee_per_gas. by rewrite Ecl. }
    destruct (C31_total _ _ (h_gas_used q) (h_base_fee_per_gas q) Ecl) as (f & Hf). rewrite Hf. cbn [obind].
    apply C31_value in Hf as [_ Hf]. apply check_limit_spec in Ecl as (G1 & G2 & G3).
    assert (Hfee : forall g, child_base_fee q g <-> f = g).
    { intros g. unfold child_base_fee. cbv zeta in *. destruct (_ <=? _); subst f; split; congruence. }
    eapply (Hchk (f = h_base_fee_per_gas h)); [apply N.eqb_eq|intros []; by apply Hfee|intros P4].
    eapply (Hchk (h_timestamp q < h_timestamp h)); [apply N.ltb_lt|by intros []|intros P5].
    eapply (Hchk (h_number h = h_number q + 1)); [apply N.eqb_eq|by intros []|intros P6].
    eapply (Hchk (lenN (h_extra_data h) <= 32)); [apply N.leb_le|by intros []|intros P7].
    eapply (Hchk (h_difficulty h = 0)); [apply N.eqb_eq|by intros []|intros P8].
    eapply (Hchk (h_nonce h = zeros 8)); [apply bytes_eqb_eq|by intros []|intros P9].
    eapply (Hchk (h_ommers_hash h = EMPTY_OMMER_HASH cr)); [apply bytes_eqb_eq|by intros []|intros P10].
    destruct (bytes_eqb _ _) eqn:E.
    - apply bytes_eqb_eq in E. left. split; [|done]. constructor; try done; [by apply Hfee|].
      intros Hb. by rewrite (P2 Hb).
    - right. split; [|done]. intros []. apply bytes_eqb_eq in ch_parent0.
      unfold header_hash in E. congruence.
  Qed.

  (** Blocks: what must hold for one to be accepted, and the chain after it. *)
  Record agrees (h : header) (bo : block_output) (s : state) : Prop := {
    ds_gas : bo_block_gas_used bo = h_gas_used h;
    ds_blob_gas : has_blobs (h_fork h) -> bo_blob_gas_used bo = h_blob_gas_used h;
    ds_transactions : root cr encode_tx_node (bo_transactions_trie bo) = Some (h_transactions_root h);
    ds_receipts : root cr encode_receipt_node (bo_receipts_trie bo) = Some (h_receipt_root h);
    ds_withdrawals : has_withdrawals (h_fork h) ->
      root cr encode_bytes_node (bo_withdrawals_trie bo) = Some (h_withdrawals_root h);
    ds_state : state_root cr s = Some (h_state_root h);
    ds_bloom : logs_bloom cr (bo_block_logs bo) = h_bloom h;
    ds_requests : has_requests (h_fork h) -> compute_requests_hash cr (bo_requests bo) = h_requests_hash h;
  }.
  Record valid_block (chain : block_chain) (b : block) (s' : state) : Prop := {
    vb_size : h_fork (bl_header b) = Osaka -> lenN (encode (block_rlp b)) <= 8388608;
    vb_header : exists p, last (bc_blocks chain) = Some p /\ child (bl_header p) (bl_header b);
    vb_ommers : bl_ommers b = [];
    vb_body : exists bo, let h := bl_header b in
      apply_body cr (block_env_of cr chain h) (bl_transactions b) (bl_withdrawals b) (bc_state chain)
        = (Done bo, s') /\ agrees h bo s';
  }.
  Lemma obind_check_iff b (k : outcome unit) :
    (_ <~ check b ;; k) = Done tt <-> b = true /\ k = Done tt.
  Proof. destruct b; cbn; [tauto|]. split; [done|]. by intros [? _]. Qed.
  Lemma unless_iff (b : bool) (c : bool) (P Q : Prop) : (b = true <-> P) -> (c = true <-> Q) ->
    (negb b || c = true <-> (P -> Q)).
  Proof. intros <- <-. destruct b, c; cbn; intuition congruence. Qed.
  Lemma check_output_iff h bo s : check_output cr h bo s = Done tt <-> agrees h bo s.
  Proof.
    unfold check_output.
    destruct (state_root cr s) as [sr|] eqn:Esr; cbn [of_option obind]; [|split; [done|intros []; congruence]].
    destruct (root cr encode_tx_node _) as [tr|] eqn:Etr; cbn [of_option obind]; [|split; [done|intros []; congruence]].
    destruct (root cr encode_receipt_node _) as [rr|] eqn:Err; cbn [of_option obind]; [|split; [done|intros []; congruence]].
    destruct (if at_least Shanghai (h_fork h) then of_option _ (root cr encode_bytes_node (bo_withdrawals_trie bo)) else Done [])
      as [wr|ew] eqn:Ew.
    2:{ cbn [obind]. split; [done|]. intros [].
        destruct (at_least Shanghai (h_fork h)) eqn:E; [|done]. apply has_withdrawals_spec in E.
        by rewrite ds_withdrawals0 in Ew. }
    cbn [obind]. rewrite !obind_check_iff.
    assert (Hlast : forall b, check b = Done tt <-> b = true) by (by intros []). rewrite Hlast.
    rewrite (unless_iff _ _ _ _ (has_withdrawals_spec _) (bytes_eqb_eq _ _)),
      (unless_iff _ _ _ _ (has_blobs_spec _) (N.eqb_eq _ _)),
      (unless_iff _ _ _ _ (has_requests_spec _) (bytes_eqb_eq _ _)).
    rewrite !N.eqb_eq, !bytes_eqb_eq.
    assert (Hw : has_withdrawals (h_fork h) -> root cr encode_bytes_node (bo_withdrawals_trie bo) = Some wr).
    { intros E%has_withdrawals_spec. rewrite E in Ew. destruct (root cr encode_bytes_node _); [|done].
      cbn in Ew. congruence. }
    split.
    - intros (A1 & A3 & A6 & A4 & A7 & A5 & A2 & A8). constructor; try done; try congruence.
      intros E. rewrite (Hw E). by rewrite A5.
    - intros [A1 A2 A3 A4 A5 A6 A7 A8]. split_and!; try done; try congruence.
      intros E. specialize (Hw E). rewrite (A5 E) in Hw. congruence.
  Qed.
  Theorem C54_block chain b chain' :
    (forall p, last (bc_blocks chain) = Some p -> moderate (bl_header p)) ->
    state_transition cr chain b = (Done tt, chain') <->
    valid_block chain b (bc_state chain') /\ bc_chain_id chain' = bc_chain_id chain /\
    bc_blocks chain' = lastN 255 (bc_blocks chain ++ [b]).
  Proof.
    intros HM. split.
    - intros H. apply transition_done in H as (HV & HO & HS & (bo & HB & HC) & HI & HL).
      split; [|done]. constructor; [done| |done|].
      + pose proof (validate_header_inv _ _ _ _ HV) as (p & Hp & _). exists p. split; [done|].
        destruct (C54_header chain p (bl_header b) Hp (HM p Hp)) as [[? _]|[_ ?]]; [done|congruence].
      + exists bo. cbv zeta. split; [done|]. by apply check_output_iff.
    - intros ([HS (p & Hp & Hc) HO (bo & HB & HC)] & HI & HL).
      unfold state_transition. change MAX_RLP_BLOCK_SIZE with 8388608.
      destruct (at_least Osaka (h_fork (bl_header b)) && (8388608 <? lenN (encode (block_rlp b)))) eqn:E.
      { exfalso. apply andb_true_iff in E as [E1%is_osaka_spec E2%N.ltb_lt]. specialize (HS E1). lia. }
      destruct (C54_header chain p (bl_header b) Hp (HM p Hp)) as [[_ ->]|[? _]]; [|done].
      rewrite HO, HB. apply check_output_iff in HC. rewrite HC.
      f_equal. destruct chain' as [bl s' i']. cbn [bc_state bc_blocks bc_chain_id] in *. subst. f_equal.
      destruct (N.ltb_spec 255 (lenN (bc_blocks chain ++ [b]))); [done|]. symmetry. by apply lastN_short.
  Qed.
End Header.

(** ** Example *)
Example C54_nonvacuous :
  moderate (bl_header ex_genesis) /\ last (bc_blocks ex_chain) = Some ex_genesis /\
  validate_header ex_crypto ex_chain (bl_header ex_block) = Done tt /\
  validate_header ex_crypto ex_chain (bl_header ex_genesis) = Fail FInvalidBlock /\
  fst (state_transition ex_crypto ex_chain ex_block) = Done tt.
Proof. vm_compute. repeat split. Qed.

Definition PropHeader_theorems := (@C54_header, @C54_block).
Print Assumptions PropHeader_theorems.
