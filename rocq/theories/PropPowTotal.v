(** * PropPowTotal: processing a block of proof of work raises no internal
    error, with one exception (C88).

    A block is appended to the chain, or turned down with an exception meant for
    that, or (since Byzantium) MODEXP overflows, see C76. *)
From Verif Require Import Base State Rlp Bloom Transactions Trie Blocks Requests Fork Ethash Pow PowTx.
From Verif Require Import Vm Instructions Precompiles Interpreter PowVm StateSpec
  StateProofs NumericProofs RlpProofs.
From Verif Require Import EvmExamples PropExec ForkProofs PropTx PropRlp PropCommit PropEthash PropPow PropOmmers PropRewards
  PropPowTx PropPowRun PropPowBody PropPowExamples PropPowVm PropPowFrames PropPowSafe PropPowReplay PropMerge.
From Verif Require PropTotal PropChain.
From Coq Require Import ZifyBool ZifyN ZifyNat.
Ltac Zify.zify_post_hook ::= idtac.

Local Opaque to_u256 from_be_bytes N.compare.

(** ** Vocabulary *)

(** A transaction as it stands in a block: a list of fields of their types or,
    since Berlin, a string that is not empty. *)
Definition pow_readable (n : pow_name) (etx : encoded_tx) : Prop :=
  match etx with
  | ELegacy t => lenN (lt_data t) < 2 ^ 256 /\ typed_to (lt_to t)
  | EBytes b => PropPowTx.since Berlin n = true /\ b <> [] /\ lenN b < 2 ^ 64
  end.
(** Why a block is turned down: it is invalid, or one of its transactions is
    not RLP of the right shape. *)
Definition pow_turned_down (n : pow_name) (e : failure) (txs : list encoded_tx) : Prop :=
  PropTotal.rejection e \/
  (e = FDecodingError /\
   exists etx, In etx txs /\ pow_decode_transaction (rules_of n) etx = Fail FDecodingError).
(** The exception of C76 *)
Definition modexp_overflow (n : pow_name) (e : failure) : Prop :=
  PowVm.since Byzantium n = true /\ e = FEvm (ECrash OverflowError).

(** A chain between two blocks: it has kept enough blocks for the hashes of the
    last 256. *)
Record pow_chain_ok (c : pow_chain encoded_tx) : Prop := {
  pc_sound : sound (pc_state c);
  pc_id : pc_chain_id c < 2 ^ 256;
  pc_kept : exists p, last (pc_blocks c) = Some p /\ N.min (ph_number (pb_header p)) 255 <= lenN (pc_blocks c);
  pc_parents : Forall (fun b => lenN (ph_parent_hash (pb_header b)) <= 32) (pc_blocks c);
}.
(** A block with fields of their types; the gas limit leaves room. *)
Record pow_block_typed (n : pow_name) (b : pow_block encoded_tx) : Prop := {
  pt_gas : ph_gas_limit (pb_header b) < 2 ^ 240;
  pt_parent : lenN (ph_parent_hash (pb_header b)) <= 32;
  pt_coinbase : ph_coinbase (pb_header b) < 2 ^ 160;
  pt_time : ph_timestamp (pb_header b) < 2 ^ 256;
  pt_difficulty : ph_difficulty (pb_header b) < 2 ^ 256;
  pt_base_fee : forall fee, ph_base_fee_per_gas (pb_header b) = Some fee -> fee < 2 ^ 256;
  pt_txs : Forall (pow_readable n) (pb_transactions b);
}.

Section Total.
  Context (cr : crypto) (HD : PropTotal.digests cr) (k512 : bytes -> bytes) (n : pow_name).
  Notation rules := (rules_of n).
  Notation evm := (pow_evm cr n).

  Lemma fits_env c b : pow_chain_ok c -> pow_block_typed n b -> ph_number (pb_header b) < 2 ^ 256 ->
    (PropPowTx.since London n = true -> ph_base_fee_per_gas (pb_header b) <> None) ->
    (forall p, last (pc_blocks c) = Some p -> ph_number (pb_header b) <= ph_number (pb_header p) + 1) ->
    exists env, pow_env_of cr rules c (pb_header b) = Done env /\ pow_fits env /\
      pe_block_gas_limit env = ph_gas_limit (pb_header b).
  Proof.
    intros [_ C1 (p & Hp & C2) C3] [] Hn Hfe Hle. specialize (Hle _ Hp).
    unfold pow_env_of. rewrite london_rules. set (h := pb_header b) in *.
    assert (Hf : exists fee, (if PropPowTx.since London n then base_fee_of h else Done 0) = Done fee /\ fee < 2 ^ 256).
    { destruct (PropPowTx.since London n); [|by exists 0]. unfold base_fee_of.
      destruct (ph_base_fee_per_gas h) as [fee|]; [|by destruct Hfe]. exists fee. split; [done|by apply pt_base_fee0]. }
    destruct Hf as (fee & -> & Hfee). cbn [obind]. eexists. split; [done|]. split; [|done].
    assert (HL : last (lastN 255 (pc_blocks c)) = Some p) by (by rewrite PropChain.last_lastN).
    constructor; cbn [pe_chain_id pe_block_gas_limit pe_block_hashes pe_coinbase pe_number pe_base_fee_per_gas
      pe_time pe_difficulty]; try done.
    - intros k H1 H2. unfold pow_last_256_block_hashes. rewrite HL.
      rewrite lenN_app, lenN_map, PropChain.lenN_lastN. change (lenN [_]) with 1. lia.
    - unfold pow_last_256_block_hashes. rewrite HL. apply Forall_app. split.
      + apply Forall_map. unfold lastN. rewrite dropN_skipn. by apply Forall_drop.
      + constructor; [|done]. unfold pow_hash. rewrite (PropTotal.dg_keccak _ HD). done.
  Qed.

  Lemma decoded_data b tx : lenN b < 2 ^ 64 -> pow_decode_transaction rules (EBytes b) = Done tx ->
    lenN (tx_data tx) < 2 ^ 64.
  Proof.
    intros Hl H. destruct b as [|t data]; [by destruct n|]. rewrite lenN_cons in Hl. cbn [pow_decode_transaction] in H.
    destruct (tr_last_type rules =? 0); [done|].
    assert (HI : forall l x, In (RBytes x) l -> forall rest, data = encode (RList l) ++ rest -> lenN x < 2 ^ 64).
    { intros l x Hin rest E. pose proof (in_list_le _ _ Hin) as H1. pose proof (PropTotal.encode_bytes_ge x) as H2.
      rewrite E, lenN_app in Hl. lia. }
    destruct (_ =? 1); [|destruct (_ && _); [|done]];
      (destruct (decode_to _ _) as [x|] eqn:E; [|done]); cbn [obind] in H; injection H as <-;
      unfold decode_to in E; (destruct (decode data) as [r|] eqn:Er; [|done]); cbn in E;
      (apply C46_canonical in Er as [rest Er]; [|lia]).
    - destruct (d_access_list r) as [y|] eqn:Ed; [|done]. injection E as ->. unfold d_access_list in Ed.
      destruct r as [|[|? [|? [|? [|? [|? [|? [|? [|? [|? [|? [|? [|]]]]]]]]]]]]]; try done. decoded Ed.
      match goal with H : d_bytes ?r = Some ?v |- _ => destruct r as [u|]; [|done]; injection H as <- end.
      eapply HI; [|exact Er]. cbn. tauto.
    - destruct (d_fee_market r) as [y|] eqn:Ed; [|done]. injection E as ->. unfold d_fee_market in Ed.
      destruct r as [|[|? [|? [|? [|? [|? [|? [|? [|? [|? [|? [|? [|? [|]]]]]]]]]]]]]]; try done. decoded Ed.
      match goal with H : d_bytes ?r = Some ?v |- _ => destruct r as [u|]; [|done]; injection H as <- end.
      eapply HI; [|exact Er]. cbn. tauto.
  Qed.
  Lemma decoded_osaka b tx : pow_decode_transaction rules (EBytes b) = Done tx ->
    decode_transaction Osaka (EBytes b) = Done tx.
  Proof.
    destruct b as [|t data]; [by destruct n|]. cbn [pow_decode_transaction decode_transaction].
    destruct (tr_last_type rules =? 0); [done|]. destruct (_ =? 1); [done|].
    destruct (_ =? 2); [|done]. by destruct (2 <=? _).
  Qed.
  Lemma decoded_fits etx tx : pow_readable n etx -> pow_decode_transaction rules etx = Done tx ->
    known n tx /\ tx_fits tx.
  Proof.
    intros Hr H. split; [by eapply C69_known|]. destruct etx as [t|b].
    { injection H as <-. destruct Hr as [H1 H2]. split; [done|]. intros a Ha. cbn in Ha.
      unfold typed_to in H2. by rewrite Ha in H2. }
    destruct Hr as (_ & _ & Hl). pose proof (decoded_data _ _ Hl H) as H1.
    pose proof (decode_typed _ _ _ (decoded_osaka _ _ H)) as H2.
    assert (HX : 2 ^ 64 < 2 ^ 256) by done. split; [by etransitivity|]. intros a Ha.
    apply C69_known in H. destruct tx as [t|t|t|t|t]; try done; cbn in Ha, H2.
    - destruct H2 as (_ & T & _). by rewrite Ha in T.
    - destruct H2 as (_ & _ & T & _). by rewrite Ha in T.
    - destruct H2 as (_ & _ & T & _). by rewrite Ha in T.
  Qed.
  Lemma decode_fails etx e : pow_readable n etx -> pow_decode_transaction rules etx = Fail e ->
    PropTotal.rejection e \/ e = FDecodingError.
  Proof.
    destruct etx as [t|b]; [done|]. intros (Hb & Hne & _). destruct b as [|t data]; [done|].
    cbn [pow_decode_transaction].
    assert (H1 : tr_last_type (rules_of n) =? 0 = negb (PropPowTx.since Berlin n)) by (by destruct n).
    rewrite H1, Hb. cbn [negb]. unfold decode_to, invalid.
    destruct (_ =? 1); [|destruct (_ && _)];
      try (destruct (decode data ≫= _); cbn; [done|intros [= <-]; by right]).
    intros [= <-]. by left.
  Qed.

  (** ** The transactions of a block *)
  Record pow_healthy (env : pow_env) (bo : pow_block_output) : Prop := {
    ph_limit : pbo_block_gas_used bo <= pe_block_gas_limit env;
    ph_txs : t_default (pbo_transactions_trie bo) = None /\ PropTotal.full encode_tx_node (pbo_transactions_trie bo);
    ph_receipts : t_default (pbo_receipts_trie bo) = None /\
      PropTotal.full pow_encode_receipt_node (pbo_receipts_trie bo);
  }.
  Lemma healthy_recorded env bo tx i s bo' s' : known n tx ->
    pow_process_transaction cr rules env evm bo tx i s = (Done bo', s') -> pow_healthy env bo -> pow_healthy env bo'.
  Proof.
    intros Hk H [H1 [H2 H3] [H4 H5]]. apply C71_transaction in H as (sender & price & o & s2 & r & Ht & ->); [|done].
    destruct Ht as (te & m & _ & _ & Ha & _ & _ & _ & _ & _ & _ & _ & _ & _ & O1 & _).
    pose proof (pa_gas _ _ _ _ _ _ _ _ Ha) as Hg. pose proof (gas_paid_le n tx o) as Hp.
    constructor; cbn [recorded pbo_block_gas_used pbo_transactions_trie pbo_receipts_trie].
    - rewrite O1. lia.
    - rewrite PropTotal.default_set. split; [done|]. apply PropTotal.full_set; [done|done|].
      destruct tx; cbn [encode_transaction encode_tx_node]; try done. apply PropTotal.encode_not_nil.
    - rewrite PropTotal.default_set. split; [done|]. apply PropTotal.full_set; [done|done|].
      destruct tx; cbn [pow_encode_receipt pow_encode_receipt_node]; try done; apply PropTotal.encode_not_nil.
  Qed.
  Theorem C88_transactions env txs : pow_fits env -> forall bo i s,
    Forall (pow_readable n) txs -> sound s -> pow_healthy env bo ->
    (exists bo' s', pow_process_transactions cr rules env evm bo txs i s = (Done bo', s') /\
       sound s' /\ pow_healthy env bo') \/
    (exists e s', pow_process_transactions cr rules env evm bo txs i s = (Fail e, s') /\
       (pow_turned_down n e txs \/ modexp_overflow n e)).
  Proof.
    intros HF. induction txs as [|etx txs IH]; intros bo i s Hr Hs Hh; cbn [pow_process_transactions].
    { left. by exists bo, s. }
    apply Forall_cons in Hr as [Hr1 Hr].
    destruct (pow_decode_transaction rules etx) as [tx|e] eqn:E.
    - destruct (decoded_fits _ _ Hr1 E) as [Hk Hx]. rewrite (PropTotal.lift_done _ _ _ _ eq_refl).
      destruct (C76_transaction cr n env bo tx i s HD HF Hk Hx Hs (ph_limit _ _ Hh))
        as [(bo1 & s1 & E1 & Hs1)|[(e & E1 & He)|(Hb & s1 & E1)]].
      + rewrite (PropTotal.sbind_done _ _ _ _ _ E1).
        destruct (IH bo1 (i + 1) s1 Hr Hs1 (healthy_recorded _ _ _ _ _ _ _ Hk E1 Hh))
          as [?|(e & s' & H & [[He|(He & x & Hx' & Hdx)]|He])].
        * by left.
        * right. exists e, s'. split; [done|by left; left].
        * right. exists e, s'. split; [done|left; right]. split; [done|]. exists x. split; [by right|done].
        * right. exists e, s'. split; [done|by right].
      + right. exists e, s. split; [by apply PropTotal.sbind_fail|by left; left].
      + right. eexists _, s1. split; [by apply PropTotal.sbind_fail|by right].
    - right. exists e, s. split; [done|]. left. destruct (decode_fails _ _ Hr1 E) as [He| ->]; [by left|right].
      split; [done|]. exists etx. split; [by left|done].
  Qed.

  (** ** Rewards *)
  Lemma modify_snapshots s a f s' : modify_account s a f = Ok s' -> snapshots s' = snapshots s.
  Proof. unfold modify_account. destruct (f _); [|done]. by intros [= <-]. Qed.
  Lemma ommers_snapshots R k ommers : forall s u s', pay_ommers R k ommers s = (Done u, s') -> snapshots s' = snapshots s.
  Proof.
    induction ommers as [|o l IH]; intros s u s' H; cbn [pay_ommers] in H; [by apply sret_inv in H as [_ ->]|].
    do 4 (apply sbind_inv in H as (? & ? & E & H); apply lift_inv in E as [_ ->]). cbv zeta in H.
    apply sbind_inv in H as (? & ? & E & H). apply modifies_inv, modify_snapshots in E. rewrite (IH _ _ _ H). done.
  Qed.
  Lemma rewards_snapshots R k a ommers s u s' : pay_rewards R k a ommers s = (Done u, s') -> snapshots s' = snapshots s.
  Proof.
    unfold pay_rewards. intros H.
    do 3 (apply sbind_inv in H as (? & ? & E & H); apply lift_inv in E as [_ ->]).
    apply sbind_inv in H as (? & ? & E & H). apply modifies_inv, modify_snapshots in E.
    rewrite (ommers_snapshots _ _ _ _ _ _ H). done.
  Qed.
  Lemma rewards_sound R k a ommers s u s' : pay_rewards R k a ommers s = (Done u, s') -> sound s ->
    total_balance s + paid (payments R k a ommers) < 2 ^ 255 -> sound s'.
  Proof.
    intros H [Q1 Q2 Q3 Q4] Ht. pose proof (rewards_snapshots _ _ _ _ _ _ _ H).
    apply C65_rewards in H as (H1 & H2 & H3 & _). constructor.
    - by rewrite H2.
    - intros x. rewrite H1. apply Q2.
    - intros x y. unfold get_storage. rewrite H3. apply Q3.
    - congruence.
  Qed.

  (** ** Blocks *)
  Lemma consecutive_le (l : list (pow_block encoded_tx)) p b : consecutive l -> last l = Some p -> In b l ->
    ph_number (pb_header b) <= ph_number (pb_header p).
  Proof.
    intros Hc Hl Hb. apply last_Some in Hl as [l' ->].
    apply In_nth_error in Hb as [i Hi].
    assert (Hp : nth_error (l' ++ [p]) (length l') = Some p).
    { rewrite nth_error_app2 by lia. by rewrite Nat.sub_diag. }
    pose proof (consecutive_diff _ _ _ _ _ Hc Hi Hp) as H.
    assert (i < length (l' ++ [p]))%nat.
    { apply nth_error_Some. congruence. }
    rewrite app_length in *. cbn [length] in *. lia.
  Qed.

  Theorem C88_block c b : proper k512 (fork_of n) c b -> pow_chain_ok c -> pow_block_typed n b ->
    let rewards := payments (pf_block_reward (fork_of n)) (ph_number (pb_header b)) (ph_coinbase (pb_header b))
                     (pb_ommers b) in
    total_balance (pc_state c) + paid rewards < 2 ^ 255 ->
    (exists c', pow_state_transition cr k512 n evm c b = (Done tt, c') /\ sound (pc_state c') /\
       last (pc_blocks c') = Some b) \/
    (exists e c', pow_state_transition cr k512 n evm c b = (Fail e, c') /\ pc_blocks c' = pc_blocks c /\
       (pow_turned_down n e (pb_transactions b) \/ modexp_overflow n e)).
  Proof.
    intros (P1 & P2 & P3 & P4 & P5 & P6) Hc Hb rewards Ht.
    set (h := pb_header b) in *.
    assert (Hrej : forall c', pc_blocks c' = pc_blocks c ->
      exists e c'', (@Fail unit FInvalidBlock, c') = (Fail e, c'') /\ pc_blocks c'' = pc_blocks c /\
       (pow_turned_down n e (pb_transactions b) \/ modexp_overflow n e)).
    { intros c' E. exists FInvalidBlock, c'. split; [done|]. split; [done|]. left. by left. }
    unfold pow_state_transition, state_transition. fold h.
    destruct (C63_header cr k512 (fork_of n) c h P1 P2 P3 P4 P5) as [[Ha ->]|[_ ->]]; cbn [obind]; [|right; by apply Hrej].
    destruct (C64_ommers cr k512 (fork_of n) c h (pb_ommers b) P1) as [[Ho ->]|[_ ->]];
      [lia|done|done|done| |right; by apply Hrej].
    destruct Ha as [(p & Hp & Hch) _].
    destruct (fits_env c b Hc Hb) as (env & Ee & HF & Hgl).
    { fold h. assert (1962270000 < 2 ^ 256) by done. lia. }
    { fold h. intros E. apply (proj1 P5). by destruct n. }
    { intros q Hq. fold h. rewrite (pch_number _ _ _ _ Hch).
      pose proof (consecutive_le _ _ _ P3 Hq Hp). lia. }
    unfold apply_body. fold h.
    assert (HX : (exists out s1, pow_execute cr rules evm c h (pb_transactions b) (pc_state c) = (Done out, s1) /\ sound s1 /\
        total_balance s1 <= total_balance (pc_state c)) \/
      (exists e s1, pow_execute cr rules evm c h (pb_transactions b) (pc_state c) = (Fail e, s1) /\
        (pow_turned_down n e (pb_transactions b) \/ modexp_overflow n e))).
    { unfold pow_execute. fold h in Ee. rewrite (PropTotal.lift_done _ _ _ _ Ee).
      destruct (C88_transactions env (pb_transactions b) HF empty_pow_block_output 0 (pc_state c))
        as [(bo & s1 & E1 & Hs1 & Hh)|(e & s1 & E1 & He)].
      { apply (pt_txs _ _ Hb). } { apply Hc. }
      { constructor; cbn; [lia| |]; (split; [done|]); by intros ? ?. }
      - rewrite (PropTotal.sbind_done _ _ _ _ _ E1). destruct Hh as [_ [_ F1] [_ F2]].
        destruct (PropTotal.root_done cr _ _ F1) as [r1 ->]. destruct (PropTotal.root_done cr _ _ F2) as [r2 ->].
        left. eexists _, s1. split; [reflexivity|]. split; [done|].
        apply C72_sequence in E1 as (txs & rs & _ & E1 & _).
        pose proof (C72_no_mint _ _ _ _ _ _ _ _ _ (C73_frugal cr n env) E1) as T. clear -T. nia.
      - right. exists e, s1. split; [by apply PropTotal.sbind_fail|done]. }
    destruct HX as [(out & s1 & E1 & Hs1 & T1)|(e & s1 & E1 & He)].
    2:{ right. exists e. eexists. rewrite (PropTotal.sbind_fail _ _ _ _ _ E1). split; [reflexivity|]. done. }
    rewrite (PropTotal.sbind_done _ _ _ _ _ E1).
    destruct (C65_no_error (pf_block_reward (fork_of n)) (ph_number h) (ph_coinbase h) (pb_ommers b) s1) as [s2 E2].
    { by destruct n. }
    { intros o Hin. destruct Ho as (_ & _ & _ & Ho). destruct (Ho o Hin) as [Hage _ _ _ _ _ _]. lia. }
    { fold rewards. assert (2 ^ 255 < 2 ^ 256) by done. clear -H Ht T1. lia. }
    { destruct Ho as (_ & Ho & _). assert (2 < 2 ^ 256) by done. lia. }
    rewrite (PropTotal.sbind_done _ _ _ _ _ E2). cbn [sret].
    assert (Hs2 : sound s2).
    { eapply rewards_sound; [exact E2|done|]. fold rewards. clear -Ht T1. lia. }
    destruct (PropTotal.state_root_done cr s2 (so_closed _ Hs2)) as [r0 ->]. cbn [of_option obind]. unfold sret.
    match goal with |- context [match ?x with Done _ => _ | Fail _ => _ end] =>
      assert (HZ : x = Done tt \/ x = Fail FInvalidBlock) end.
    { unfold check. repeat match goal with |- context [if ?b then Done tt else _] => destruct b; cbn [obind] end; tauto. }
    destruct HZ as [-> | ->].
    - left. eexists. split; [reflexivity|]. split; [done|]. cbn [pc_blocks].
      destruct (255 <? _); [rewrite PropChain.last_lastN by done|]; apply last_snoc.
    - right. by apply Hrej.
  Qed.
End Total.

Lemma easy_digests : PropTotal.digests easy_crypto.
Proof.
  constructor; intros b; cbn [easy_crypto keccak256 sha256_digest ripemd160_digest].
  - unfold easy256. rewrite lenN_app, to_be_fixed_len. done.
  - unfold toy_hash. rewrite takeN_firstn. unfold lenN. rewrite firstn_length, app_length.
    change (length (zeros 32)) with 32%nat. lia.
  - unfold toy_hash. rewrite !takeN_firstn. unfold lenN. rewrite !firstn_length, app_length.
    change (length (zeros 32)) with 32%nat. lia.
Qed.
Lemma toy_codes l : Forall (fun x : address * account => lenN (code (snd x)) < 2 ^ 256) l ->
  forall a, lenN (code (get_account (toy_state l ∅) a)) < 2 ^ 256.
Proof.
  intros H a. rewrite get_lookup. cbn [toy_state main_trie].
  destruct (_ !! a) as [acc|] eqn:E; [|by vm_compute]. apply elem_of_list_to_map_2 in E.
  rewrite Forall_forall in H. apply (H _ E).
Qed.

(** ** The proviso on transactions: an empty string in a block raises IndexError *)
Theorem C88_empty_refuted : exists cr k512 c b, PropTotal.digests cr /\
  proper k512 (fork_of GrayGlacier) c b /\ pow_chain_ok c /\ pb_transactions b = [EBytes []] /\
  fst (pow_state_transition cr k512 GrayGlacier (pow_evm cr GrayGlacier) c b) = Fail (FCrash IndexError).
Proof.
  exists easy_crypto, zero512, last_chain, (PowBlock (pb_header last_block) [EBytes []] []).
  split; [exact easy_digests|]. split; [|split; [|split; [done|]]].
  - split; [exact zero512_digests|]. split; [done|]. split; [by intros [|[]] ?|]. split; [done|].
    split; [|done]. split; [done|]. intros b [<-|[]] _. by split.
  - constructor; [|done|by eexists|by repeat constructor].
    constructor; [by vm_compute| | |done].
    + apply toy_codes. by repeat constructor.
    + intros a k. rewrite get_storage_slot. unfold slot_of. cbn [last_chain pc_state toy_state storage_tries].
      rewrite lookup_empty. vm_compute; reflexivity.
  - unfold pow_state_transition. rewrite transition_fast; [|easy_worked|constructor].
    vm_compute; reflexivity.
Qed.

(** ** Concrete cases: the block of C86 is appended; in the block of C87 with the
    string 0x01 in place of its transactions, the string is not RLP. *)
Definition garbled_block : pow_block encoded_tx := PowBlock (pb_header last_block) [EBytes [Byte.x01]] [].
Example C88_nonvacuous :
  PropTotal.digests easy_crypto /\
  (proper zero512 (fork_of Byzantium) pay_chain once_block /\ pow_chain_ok pay_chain /\
   pow_block_typed Byzantium once_block /\
   total_balance (pc_state pay_chain) + paid (payments (pf_block_reward (fork_of Byzantium)) 1 0xc1 []) < 2 ^ 255 /\
   pow_state_transition easy_crypto zero512 Byzantium (pow_evm easy_crypto Byzantium) pay_chain once_block
     = (Done tt, once_after)) /\
  (proper zero512 (fork_of GrayGlacier) last_chain garbled_block /\ pow_chain_ok last_chain /\
   pow_block_typed GrayGlacier garbled_block /\
   fst (pow_state_transition easy_crypto zero512 GrayGlacier (pow_evm easy_crypto GrayGlacier) last_chain garbled_block)
     = Fail FDecodingError).
Proof.
  assert (HC : forall l id b, Forall (fun x : address * account => lenN (code (snd x)) < 2 ^ 256) l ->
    total_balance (toy_state l ∅) < 2 ^ 255 -> id < 2 ^ 256 -> ph_number (pb_header b) = 0 ->
    lenN (ph_parent_hash (pb_header b)) <= 32 -> pow_chain_ok (PowChain [b] (toy_state l ∅) id)).
  { intros l id b H1 H2 H3 H4 H5. constructor; [|done| |by repeat constructor].
    - constructor; [done| | |done]; cbn [pc_state].
      + by apply toy_codes.
      + intros a k. rewrite get_storage_slot. unfold slot_of. cbn [toy_state storage_tries].
        rewrite lookup_empty. vm_compute; reflexivity.
    - exists b. cbn [pc_blocks]. split; [done|]. rewrite H4. vm_compute. discriminate. }
  split; [exact easy_digests|]. split; (split; [|split; [|split]]).
  - split; [exact zero512_digests|]. split; [done|]. split; [by intros [|[]] ?|]. split; [done|].
    split; [|done]. split; [done|]. intros b [<-|[]] _. by split.
  - apply HC; [by repeat constructor|by vm_compute|done|done|done].
  - constructor; [vm_compute; reflexivity|vm_compute; discriminate|vm_compute; reflexivity..|by intros fee [=]|].
    constructor; [|constructor; [|constructor]]; (split; vm_compute; reflexivity).
  - split; [by vm_compute|].
    unfold pow_state_transition. rewrite transition_fast; [|easy_worked|constructor].
    unfold once_after. apply injective_projections; vm_compute; reflexivity.
  - split; [exact zero512_digests|]. split; [done|]. split; [by intros [|[]] ?|]. split; [done|].
    split; [|done]. split; [done|]. intros b [<-|[]] _. by split.
  - apply HC; [by repeat constructor|by vm_compute|done|done|done].
  - constructor; [vm_compute; reflexivity|vm_compute; discriminate|vm_compute; reflexivity..| |].
    + intros fee [= <-]. vm_compute; reflexivity.
    + constructor; [|constructor]. split; [done|]. split; [done|]. vm_compute; reflexivity.
  - unfold pow_state_transition. rewrite transition_fast; [|easy_worked|constructor]. vm_compute; reflexivity.
Qed.

Definition PropPowTotal_theorems := (@C88_transactions, @C88_block, @C88_empty_refuted).
Print Assumptions PropPowTotal_theorems.
