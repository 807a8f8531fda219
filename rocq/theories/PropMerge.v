(** * PropMerge: from proof of work to Paris and beyond (C87). *)
From Verif Require Import Base State Rlp Bloom Transactions Trie Blocks Requests Fork Ethash Pow PowTx Merge.
From Verif Require Import Vm Instructions Precompiles Interpreter PowVm StateSpec
  StateProofs NumericProofs ArithProofs EvmStep EvmLocal EvmPlan EvmPlanProofs EvmCallProofs
  EvmFrame EvmAccounts EvmRule PowVmPlan PowVmOps PowVmCalls PowVmFrame PowVmRule.
From Verif Require Import ForkProofs PropRewards PropPowTx PropPowRun PropPowBody PropPowExamples PropPowVm PropPowFrames
  PropPowReplay.
From Verif Require Import TxProofs EvmExamples.
From Verif Require PropHistory PropChain PropHeader.
From Coq Require Import ZifyBool ZifyN ZifyNat.
Ltac Zify.zify_post_hook ::= idtac.

Local Opaque to_u256 from_be_bytes calculate_memory_gas_cost ceil32 N.compare.

(** ** No transaction stays open *)
Section Settled.
  Context (cr : crypto) (k512 : bytes -> bytes).

  Section Calls.
    Context (n : pow_name) (env : pow_env) (te : tx_env).
    Lemma pow_message_settles i m w e t w' : pow_process_message cr n env te i m w = PPRet e t w' ->
      settled (st w) -> settled (st w').
    Proof.
      intros H [Hs _]. assert (Hs' : snapshots (st w') = []).
      { pose proof (pmessage_struct cr n env te i m w) as R. rewrite H in R. by rewrite (pps_snap _ _ _ _ _ R). }
      split; [done|]. pose proof (pow_message_run cr n env te i m w) as R. rewrite H in R.
      inversion R; subst; [by eapply rollback_settles|by eapply commit_settles].
    Qed.
    Lemma pow_create_settles i m w e t w' : pow_process_create_message cr n env te i m w = PPRet e t w' ->
      settled (st w) -> settled (st w').
    Proof.
      intros H [Hs _]. assert (Hs' : snapshots (st w') = []).
      { pose proof (pcreate_struct cr n env te i m w) as R. rewrite H in R. by rewrite (pps_snap _ _ _ _ _ R). }
      split; [done|]. pose proof (pow_create_run cr n env te i m w) as R. rewrite H in R.
      inversion R; subst; [by eapply rollback_settles|by eapply rollback_settles|by eapply commit_settles..].
    Qed.
    Lemma pow_call_settles m w o w' : pow_process_message_call cr n env te m w = PCRet o w' ->
      settled (st w) -> settled (st w').
    Proof.
      assert (HF : forall e t w1, pow_finish_call e t w1 = PCRet o w' -> w' = w1).
      { intros e t w1. unfold pow_finish_call. destruct (e_error e); [by intros [= _ <-]|].
        destruct (_ || _); [done|]. by intros [= _ <-]. }
      unfold pow_process_message_call. intros H Hs. destruct (m_target m).
      - destruct (pow_process_message cr n env te ∅ m w) as [e t w1|] eqn:E; [|done].
        apply HF in H as ->. by eapply pow_message_settles.
      - destruct (_ || _); [by injection H as _ <-|].
        destruct (pow_process_create_message cr n env te ∅ m w) as [e t w1|] eqn:E; [|done].
        apply HF in H as ->. by eapply pow_create_settles.
    Qed.
  End Calls.
  Lemma pow_transaction_settles n env bo tx s sender price o s2 r s' :
    pow_transacted cr n env (pow_evm cr n) bo tx s sender price o s2 r s' -> settled s -> settled s'.
  Proof.
    intros (te & m & H) Hs. cbv zeta in H. destruct H as (_ & _ & _ & _ & _ & Ev & _ & [_ _ [K1 K2]] & _).
    unfold pow_evm in Ev.
    destruct (pow_process_message_call cr n env te m (World _ empty_transient)) as [o1 w1|] eqn:E; [|done].
    injection Ev as _ Ev. rewrite <- Ev in K1, K2. unfold settled. rewrite K1, K2.
    by apply (pow_call_settles _ _ _ _ _ _ _ E).
  Qed.
  Lemma pow_sequence_settles n env g s txs rs s' :
    pow_sequence cr n env (pow_evm cr n) g s txs rs s' -> settled s -> settled s'.
  Proof. induction 1; [done|]. intros Hs. apply IHpow_sequence. by eapply pow_transaction_settles. Qed.

  Lemma modify_settles s a f s' : modify_account s a f = Ok s' -> settled s -> settled s'.
  Proof. unfold modify_account. destruct (f _); [|done]. by intros [= <-]. Qed.
  Lemma ommers_settle R k ommers : forall s u s', pay_ommers R k ommers s = (Done u, s') -> settled s -> settled s'.
  Proof.
    induction ommers as [|o l IH]; intros s u s' H Hs; cbn [pay_ommers] in H; [by apply sret_inv in H as [_ ->]|].
    do 4 (apply sbind_inv in H as (? & ? & E & H); apply lift_inv in E as [_ ->]). cbv zeta in H.
    apply sbind_inv in H as (? & ? & E & H). apply modifies_inv in E. eapply IH; [exact H|]. by eapply modify_settles.
  Qed.
  Lemma rewards_settle R k a ommers s u s' : pay_rewards R k a ommers s = (Done u, s') -> settled s -> settled s'.
  Proof.
    unfold pay_rewards. intros H Hs.
    do 3 (apply sbind_inv in H as (? & ? & E & H); apply lift_inv in E as [_ ->]).
    apply sbind_inv in H as (? & ? & E & H). apply modifies_inv in E. eapply ommers_settle; [exact H|].
    by eapply modify_settles.
  Qed.
  Lemma pow_block_settles n c b c' : lenN (pb_transactions b) < 2 ^ 256 ->
    pow_state_transition cr k512 n (pow_evm cr n) c b = (Done tt, c') -> settled (pc_state c) -> settled (pc_state c').
  Proof.
    intros Hl H Hs. unfold pow_state_transition in H.
    apply PropOmmers.transition_done in H as (_ & _ & (out & Ha & _) & _). unfold apply_body in Ha.
    apply sbind_inv in Ha as (out' & s1 & He & Ha). apply sbind_inv in Ha as ([] & s2 & Hp & Ha).
    apply sret_inv in Ha as [_ ->]. apply (rewards_settle _ _ _ _ _ _ _ Hp).
    apply C72_execute in He as (env & txs & rs & t1 & t2 & _ & _ & Hq & _); [|done].
    by eapply pow_sequence_settles.
  Qed.
  Lemma dao_settles l : forall s s', apply_dao_loop s l = Ok s' -> settled s -> settled s'.
  Proof.
    induction l as [|a l IH]; intros s s' H Hs; cbn [apply_dao_loop] in H; [by injection H as <-|].
    destruct (move_ether_pow s a DAO_RECOVERY _) as [s1|] eqn:E; [|done]. apply (IH _ _ H).
    unfold move_ether_pow in E. destruct (modify_account s a _) as [s0|] eqn:E0; [|done].
    apply (modify_settles _ _ _ _ E). by apply (modify_settles _ _ _ _ E0).
  Qed.
  Lemma life_settles c0 c l : pow_life cr k512 c0 c l -> settled (pc_state c0) -> settled (pc_state c).
  Proof.
    intros H Hs. induction H as [|c l n b c' H IH Hl E|c l s H IH E]; [done| |].
    - by eapply pow_block_settles.
    - cbn [pc_state]. by apply (dao_settles _ _ _ E).
  Qed.
End Settled.

Section Merge.
  Context (cr : crypto) (k512 : bytes -> bytes).

  (** ** Headers *)

  (** A header as the type says: a mix digest has 32 bytes; since London there
      is a base fee. *)
  Definition recent (h : pow_header) : Prop := lenN (ph_mix_digest h) = 32 /\ is_Some (ph_base_fee_per_gas h).

  (** The code of Paris encodes and hashes the last header of proof of work as
      the code of Gray Glacier does. *)
  Theorem C87_encoding h : recent h -> encode (header_rlp (merged_header h)) = encode (pow_header_rlp h).
  Proof.
    intros [Hm [f Hf]]. unfold header_rlp, pow_header_rlp, pow_fields, pow_fee, merged_header.
    cbn [h_fork h_parent_hash h_ommers_hash h_coinbase h_state_root h_transactions_root h_receipt_root h_bloom
         h_difficulty h_number h_gas_limit h_gas_used h_timestamp h_extra_data h_prev_randao h_nonce
         h_base_fee_per_gas]. rewrite Hf. cbn [default app at_least fork_rank N.leb]. unfold RBytes32.
    by rewrite <- (PropBlocks.word_of_slice (ph_mix_digest h) _ Hm eq_refl).
  Qed.

  Lemma encode_list_ext l1 l2 : map encode l1 = map encode l2 -> encode (RList l1) = encode (RList l2).
  Proof using. intros H. cbn [encode]. by rewrite H. Qed.
  (** So it does with whole blocks: their transactions and ommers are kept. *)
  Theorem C87_block b : recent (pb_header b) -> Forall recent (pb_ommers b) ->
    encode (block_rlp (merged_block b)) =
    encode (RList [pow_header_rlp (pb_header b); RList (map encoded_tx_rlp (pb_transactions b));
                   RList (map pow_header_rlp (pb_ommers b))]).
  Proof.
    intros Hh Ho. unfold block_rlp, merged_block. cbn [bl_header bl_transactions bl_ommers].
    change (at_least Shanghai (h_fork (merged_header (pb_header b)))) with false. cbn [app].
    apply encode_list_ext. cbn [map]. rewrite C87_encoding by done. do 3 f_equal.
    apply encode_list_ext. rewrite !map_map. induction Ho as [|h l H1 H2 IH]; [done|]. cbn [map].
    by rewrite C87_encoding, IH.
  Qed.

  (** Every block accepted since London is like that. *)
  Theorem C87_recent n c b c' : PropEthash.digests64 k512 -> ph_number (pb_header b) < 1962270000 ->
    PropPowTx.since London n = true ->
    pow_state_transition cr k512 n (pow_evm cr n) c b = (Done tt, c') ->
    last (pc_blocks c') = Some b /\ recent (pb_header b).
  Proof.
    intros H64 Hn Hf H. unfold pow_state_transition in H.
    apply PropOmmers.transition_done in H as (Hv & _ & _ & _ & Hb). split.
    { rewrite Hb, PropChain.last_lastN by done. apply last_snoc. }
    set (h := pb_header b) in *. unfold validate_header in Hv.
    apply obind_inv in Hv as (p & _ & Hv). apply obind_inv in Hv as (? & _ & Hv).
    apply obind_inv in Hv as (? & Hfee & Hv). cbv zeta in Hv.
    do 3 (apply obind_inv in Hv as (? & _ & Hv)). apply obind_inv in Hv as (? & _ & Hv).
    do 3 (apply obind_inv in Hv as (? & _ & Hv)). split.
    - assert (Hd : 0 < ph_difficulty h).
      { destruct (N.eq_dec (ph_difficulty h) 0) as [E|]; [|lia]. exfalso.
        unfold validate_proof_of_work in Hv.
        apply obind_inv in Hv as (? & _ & Hv). apply obind_inv in Hv as (? & _ & Hv).
        apply obind_inv in Hv as ([d1 d2] & _ & Hv). apply obind_inv in Hv as (? & _ & Hv).
        rewrite E in Hv. done. }
      destruct (PropPow.C63_proof_of_work cr k512 h H64 Hn Hd) as (digest & result & He & Hp).
      rewrite Hp in Hv. destruct (bytes_eqb digest (ph_mix_digest h)) eqn:E; [|done].
      apply bytes_eqb_eq in E as <-. clear -He.
      by destruct He as (q & R & cache & p' & dataset & _ & _ & _ & _ & _ & _ & m & _ & _ & _ & Hl & _).
    - unfold validate_fee in Hfee. destruct (pf_base_fee (fork_of n)) eqn:E; [|by destruct n].
      apply obind_inv in Hfee as (? & _ & Hfee). apply obind_inv in Hfee as (fee & Hfee & _).
      unfold base_fee_of in Hfee. destruct (ph_base_fee_per_gas h) as [x'|] eqn:E'; [|done]. by exists x'.
  Qed.

  (** BLOCKHASH sees the same hashes. *)
  Theorem C87_hashes c b : last (pc_blocks c) = Some b -> recent (pb_header b) ->
    get_last_256_block_hashes cr (apply_fork c) = pow_last_256_block_hashes cr c.
  Proof.
    intros Hb Hr. apply last_Some in Hb as [l Hl].
    assert (HL : lastN 255 (map merged_block (pc_blocks c)) = map merged_block (lastN 255 (pc_blocks c))).
    { unfold lastN. rewrite !dropN_skipn. unfold lenN. by rewrite map_length, skipn_map. }
    assert (HK : exists k, lastN 255 (pc_blocks c) = k ++ [b]).
    { rewrite Hl. unfold lastN. rewrite dropN_skipn. unfold lenN. rewrite app_length. cbn [length]. rewrite skipn_app.
      replace (_ - length l)%nat with 0%nat by lia. by eexists. }
    destruct HK as [k HK].
    unfold get_last_256_block_hashes, pow_last_256_block_hashes, apply_fork. cbn [bc_blocks].
    rewrite HL, HK, map_app. cbn [map]. rewrite !last_snoc, !map_app, map_map. cbn [map merged_block bl_header].
    unfold header_hash, pow_hash. by rewrite C87_encoding.
  Qed.

  (** A header that may follow the last one of proof of work, [p] with the base
      fee [fee] *)
  Record first_header (p : pow_header) (fee : N) (h : header) : Prop := {
    fh_number : h_number h = ph_number p + 1;
    fh_parent : h_parent_hash h = pow_hash cr p;
    fh_time : ph_timestamp p < h_timestamp h;
    fh_gas : h_gas_used h <= h_gas_limit h;
    fh_minimum : 5000 <= h_gas_limit h;
    fh_above : h_gas_limit h < ph_gas_limit p + ph_gas_limit p / 1024;
    fh_below : ph_gas_limit p < h_gas_limit h + ph_gas_limit p / 1024;
    fh_fee : let target := ph_gas_limit p / 2 in
      h_base_fee_per_gas h =
        if ph_gas_used p <=? target then fee - fee * (target - ph_gas_used p) / (8 * target)
        else fee + N.max 1 (fee * (ph_gas_used p - target) / (8 * target));
    fh_extra : lenN (h_extra_data h) <= 32;
    fh_difficulty : h_difficulty h = 0;
    fh_nonce : h_nonce h = zeros 8;
    fh_ommers : h_ommers_hash h = keccak256 cr (encode (RList []));
  }.

  (** The first header of Paris is accepted just if it follows the last one of
      proof of work; otherwise it is invalid. *)
  Theorem C87_header c b fee h : last (pc_blocks c) = Some b -> recent (pb_header b) ->
    ph_base_fee_per_gas (pb_header b) = Some fee -> h_fork h = Paris ->
    (first_header (pb_header b) fee h /\ Fork.validate_header cr (apply_fork c) h = Done tt) \/
    (~ first_header (pb_header b) fee h /\ Fork.validate_header cr (apply_fork c) h = Fail FInvalidBlock).
  Proof.
    intros Hb Hr Hf Hp.
    assert (Hl : last (bc_blocks (apply_fork c)) = Some (merged_block b)).
    { apply last_Some in Hb as [l Hl]. cbn [apply_fork bc_blocks]. rewrite Hl, map_app. cbn [map]. by rewrite last_snoc. }
    assert (HQ : PropHeader.child cr (bl_header (merged_block b)) h <-> first_header (pb_header b) fee h).
    { cbn [merged_block bl_header]. set (p := pb_header b) in *.
      assert (HF : PropHeader.child_base_fee (merged_header p) (h_base_fee_per_gas h) <->
        h_base_fee_per_gas h = let target := ph_gas_limit p / 2 in
          if ph_gas_used p <=? target then fee - fee * (target - ph_gas_used p) / (8 * target)
          else fee + N.max 1 (fee * (ph_gas_used p - target) / (8 * target))).
      { unfold PropHeader.child_base_fee, merged_header. cbn [h_gas_limit h_gas_used h_base_fee_per_gas].
        rewrite Hf. cbn [default]. by destruct (_ <=? _). }
      split.
      - intros [A1 A2 A3 A4 A5 A6 A7 A8 A9 A10 A11 A12 A13]. constructor; try done.
        + rewrite A2. by rewrite C87_encoding.
        + by apply HF.
      - intros [A1 A2 A3 A4 A5 A6 A7 A8 A9 A10 A11 A12]. constructor; try done.
        + rewrite A2. by rewrite C87_encoding.
        + by apply HF.
        + rewrite Hp. by intros []. }
    destruct (PropHeader.C54_header cr _ _ h Hl) as [[H1 H2]|[H1 H2]]; [by split|left|right].
    - split; [by apply HQ|done].
    - split; [by rewrite <- HQ|done].
  Qed.

  (** ** Chains *)

  (** From Frontier to Osaka: blocks of proof of work, then blocks since the
      merge.  No sender and nonce occurs twice, and ether comes from rewards and
      withdrawals only. *)
  Theorem C87_life c0 c l d bs : pow_life cr k512 c0 c l -> settled (pc_state c0) ->
    PropHistory.accepted cr (apply_fork c) d bs -> PropHistory.in_order bs ->
    (exists ids, ids_of cr (pc_chain_id c0) l
        ++ map (PropHistory.tx_id cr (pc_chain_id c0)) (concat (map bl_transactions bs)) = map Some ids /\
      NoDup ids /\ Forall (fun '(a, k) => k < nonce (get_account (bc_state d) a)) ids) /\
    total_balance (bc_state d) <= total_balance (pc_state c0) + rewards_of l
      + 10 ^ 9 * PropWithdrawals.sumN (map wd_amount (concat (map bl_withdrawals bs))).
  Proof.
    intros H Hs Ha Ho. pose proof (life_settles _ _ _ _ _ H Hs) as Hs'. split.
    - by apply (C86_merge cr k512 c0 c l (apply_fork c) d bs).
    - pose proof (C73_life _ _ _ _ _ H). pose proof (PropHistory.C48_chain cr _ _ _ Ha Hs') as K.
      cbn [apply_fork bc_state] in K. lia.
  Qed.
End Merge.

(** ** A concrete case: a block of Gray Glacier with two transfers, and a block
    of Paris with one more *)
Definition last_parent : pow_block encoded_tx :=
  PowBlock (PowHeader (zeros 32) easy_empty 0 (zeros 32) [] [] [] 131072 0 50000 25000 1000 []
              (zeros 32) (zeros 8) (Some 1)) [] [].
Definition last_chain : pow_chain encoded_tx :=
  PowChain [last_parent] (toy_state [(pay_sender, Account 0 200000 [])] ∅) 1.
Definition last_block : pow_block encoded_tx :=
  Eval vm_compute in
  let h root used tr rr bloom := PowHeader (pow_hash easy_crypto (pb_header last_parent)) easy_empty 0xc1 root
    tr rr bloom 131072 1 50000 used 1010 [] (zeros 32) (zeros 8) (Some 1) in
  let b root used tr rr bloom := PowBlock (h root used tr rr bloom) pay_txs [] in
  match apply_body (fork_of GrayGlacier) (pow_execute easy_crypto (rules_of GrayGlacier) (pow_evm easy_crypto GrayGlacier))
          last_chain (b [] 0 [] [] []) (pc_state last_chain) with
  | (Done o, s) => b (default [] (state_root easy_crypto s)) (po_gas_used o) (po_transactions_root o)
                     (po_receipt_root o) (po_bloom o)
  | _ => b [] 0 [] [] []
  end.
Definition last_after : pow_chain encoded_tx :=
  snd (fast_transition easy_crypto (fork_of GrayGlacier)
         (pow_execute easy_crypto (rules_of GrayGlacier) (pow_evm easy_crypto GrayGlacier)) last_chain last_block).
Definition first_txs : list encoded_tx := [ELegacy (LegacyTx 2 2 21000 (Some 0xc2) 9 [] 27 11 12)].
Definition first_open root tr rr bloom used : block :=
  Block (Header Paris (pow_hash easy_crypto (pb_header last_block)) (keccak256 easy_crypto (encode (RList []))) 0xc0
    root tr rr bloom 0 2 50000 used 1020 [] 5 (zeros 8) 2 [] 0 0 0 []) first_txs [] [].
Definition first_block : block :=
  Eval vm_compute in
  let b := first_open [] [] [] [] 0 in
  match Fork.apply_body easy_crypto (block_env_of easy_crypto (apply_fork last_after) (bl_header b)) first_txs []
          (pc_state last_after) with
  | (Done bo, s) =>
      first_open (default [] (state_root easy_crypto s))
        (default [] (root easy_crypto encode_tx_node (bo_transactions_trie bo)))
        (default [] (root easy_crypto encode_receipt_node (bo_receipts_trie bo)))
        (logs_bloom easy_crypto (bo_block_logs bo)) (bo_block_gas_used bo)
  | _ => b
  end.
Definition first_after : block_chain := snd (Fork.state_transition easy_crypto (apply_fork last_after) first_block).
Example C87_nonvacuous :
  pow_life easy_crypto zero512 last_chain last_after [(GrayGlacier, last_block)] /\
  settled (pc_state last_chain) /\ recent (pb_header last_block) /\
  PropHistory.accepted easy_crypto (apply_fork last_after) first_after [first_block] /\
  PropHistory.in_order [first_block] /\
  ids_of easy_crypto 1 [(GrayGlacier, last_block)]
    ++ map (PropHistory.tx_id easy_crypto 1) (bl_transactions first_block)
    = [Some (pay_sender, 0); Some (pay_sender, 1); Some (pay_sender, 2)] /\
  nonce (get_account (bc_state first_after) pay_sender) = 3.
Proof.
  split.
  { apply (PL_block _ _ _ last_chain []); [constructor|vm_compute; reflexivity|].
    unfold pow_state_transition. rewrite transition_fast; [|easy_worked|constructor].
    unfold last_after. apply injective_projections; vm_compute; reflexivity. }
  split; [by split|]. split; [by split; [|by eexists]|]. split.
  { apply (PropHistory.ac_block _ _ (apply_fork last_after) []); [constructor|].
    unfold first_after. apply injective_projections; vm_compute; reflexivity. }
  split; [|split; vm_compute; reflexivity].
  intros i j b1 b2 _ H Hij. destruct j as [|j]; [lia|]. by destruct j.
Qed.

Definition PropMerge_theorems := (@C87_encoding, @C87_block, @C87_recent, @C87_hashes, @C87_header, @C87_life).
Print Assumptions PropMerge_theorems.
