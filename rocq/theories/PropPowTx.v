(** * PropPowTx: which transactions the proof-of-work forks understand.

    C69 (intrinsic cost, validity and types of transactions) and C70
    (signatures). *)
From Verif Require Import Base State Rlp Vm Instructions Precompiles Interpreter Bloom Transactions Trie
  Blocks Requests Fork ForkProofs NumericProofs RlpProofs EvmExamples PropTx PropTransaction PowTx.
From Coq Require Import ZifyBool ZifyN ZifyNat.
Ltac Zify.zify_post_hook ::= idtac.

Local Opaque to_u256 from_be_bytes.

(** ** The order of the forks *)
Definition generation (n : pow_name) : N :=
  match n with
  | Frontier => 0 | Homestead => 1 | DaoFork => 2 | TangerineWhistle => 3 | SpuriousDragon => 4
  | Byzantium => 5 | Constantinople => 6 | Istanbul => 7 | MuirGlacier => 8 | Berlin => 9
  | London => 10 | ArrowGlacier => 11 | GrayGlacier => 12
  end.
(** [n] is [f] or a later fork. *)
Definition since (f n : pow_name) : bool := generation f <=? generation n.

(** The transactions that exist: typed ones since Berlin (EIP-2930) and London
    (EIP-1559). *)
Definition known (n : pow_name) (tx : transaction) : Prop :=
  match tx with
  | Legacy _ => True
  | AccessList _ => since Berlin n = true
  | FeeMarket _ => since London n = true
  | _ => False
  end.

(** ** C69 *)

(** 21000, the data (EIP-2028 since Istanbul), 32000 for a creation (EIP-2 since
    Homestead) and the access list. *)
Definition intrinsic (n : pow_name) (tx : transaction) : N :=
  21000 + 4 * zero_bytes (tx_data tx)
  + (if since Istanbul n then 16 else 68) * nonzero_bytes (tx_data tx)
  + (if is_creation tx && since Homestead n then 32000 else 0)
  + 2400 * lenN (access_of tx) + 1900 * sumN (fun a => lenN (ac_slots a)) (access_of tx).

Theorem C69_intrinsic n tx : pow_intrinsic_cost (rules_of n) tx = intrinsic n tx.
Proof.
  unfold pow_intrinsic_cost, intrinsic.
  assert (HD : forall k d c, fold_left (fun c b => if Byte.to_N b =? 0 then c + 4 else c + k) d c
    = c + 4 * zero_bytes d + k * nonzero_bytes d).
  { intros k. unfold zero_bytes, nonzero_bytes. induction d as [|b d IH]; intros c.
    { cbn. change (lenN []) with 0. lia. }
    cbn [fold_left]. rewrite IH.
    assert (Hb : Byte.to_N b = 0 <-> b = Byte.x00).
    { split; [|by intros ->]. intros H. rewrite <- (byte_to_N_of_N b), H. done. }
    rewrite !filter_cons. destruct (decide (b = Byte.x00)) as [E|E].
    - destruct (N.eqb_spec (Byte.to_N b) 0) as [E'|E']; [|tauto].
      rewrite (decide_False (P := b <> Byte.x00)) by tauto. rewrite !lenN_cons. lia.
    - destruct (N.eqb_spec (Byte.to_N b) 0) as [E'|E']; [tauto|].
      rewrite (decide_True (P := b <> Byte.x00)) by tauto. rewrite !lenN_cons. lia. }
  rewrite HD.
  assert (HA : forall l n, fold_left (fun c a =>
      c + TX_ACCESS_LIST_ADDRESS_COST + lenN (ac_slots a) * TX_ACCESS_LIST_STORAGE_KEY_COST) l n
    = n + 2400 * lenN l + 1900 * sumN (fun a => lenN (ac_slots a)) l).
  { induction l as [|a l IH]; intros m; cbn [fold_left sumN fold_right]; [change (lenN []) with 0; lia|].
    rewrite IH, lenN_cons. fold (sumN (fun a => lenN (ac_slots a)) l).
    unfold TX_ACCESS_LIST_ADDRESS_COST, TX_ACCESS_LIST_STORAGE_KEY_COST. lia. }
  assert (HA' : match tx_access_list tx with
    | Some l => fold_left (fun c a =>
        c + TX_ACCESS_LIST_ADDRESS_COST + lenN (ac_slots a) * TX_ACCESS_LIST_STORAGE_KEY_COST) l 0
    | None => 0 end = 2400 * lenN (access_of tx) + 1900 * sumN (fun a => lenN (ac_slots a)) (access_of tx)).
  { unfold access_of. destruct (tx_access_list tx); cbn [default]; [rewrite HA; unfold id; lia|done]. }
  rewrite HA'. unfold is_creation, TX_BASE_COST.
  assert (E1 : tr_non_zero_cost (rules_of n) = if since Istanbul n then 16 else 68) by (by destruct n).
  assert (E2 : tr_create_cost (rules_of n) = if since Homestead n then 32000 else 0) by (by destruct n).
  rewrite E1, E2. generalize ((if since Istanbul n then 16 else 68) * nonzero_bytes (tx_data tx)).
  intros z. destruct (tx_to tx); cbn [andb]; destruct (since Homestead n); lia.
Qed.

(** A transaction is valid iff its gas covers the intrinsic cost and its nonce
    is below 2^64 - 1 (EIP-2681). *)
Theorem C69_validate n tx g :
  pow_validate_transaction (rules_of n) tx = Done g <->
  g = intrinsic n tx /\ intrinsic n tx <= tx_gas tx /\ tx_nonce tx < 2 ^ 64 - 1.
Proof.
  unfold pow_validate_transaction. rewrite C69_intrinsic. change U64_MAX with (2 ^ 64 - 1).
  destruct (N.ltb_spec (tx_gas tx) (intrinsic n tx)); [split; [done|lia]|].
  destruct (N.leb_spec (2 ^ 64 - 1) (tx_nonce tx)); [split; [done|lia]|].
  split; [by intros [= <-]|by intros (-> & _)].
Qed.
(** The two ways to be invalid. *)
Theorem C69_invalid n tx :
  (tx_gas tx < intrinsic n tx -> pow_validate_transaction (rules_of n) tx =
     Fail (FInvalidTransaction InsufficientTransactionGasError)) /\
  (intrinsic n tx <= tx_gas tx -> 2 ^ 64 - 1 <= tx_nonce tx ->
     pow_validate_transaction (rules_of n) tx = Fail (FInvalidTransaction NonceOverflowError)).
Proof.
  unfold pow_validate_transaction. rewrite C69_intrinsic. change U64_MAX with (2 ^ 64 - 1).
  destruct (N.ltb_spec (tx_gas tx) (intrinsic n tx)); [split; [done|lia]|].
  destruct (N.leb_spec (2 ^ 64 - 1) (tx_nonce tx)); split; done || lia.
Qed.

(** What decodes is a transaction the fork knows, and it is the one encoded. *)
Theorem C69_known n e tx : pow_decode_transaction (rules_of n) e = Done tx -> known n tx.
Proof.
  unfold pow_decode_transaction. destruct e as [t|[|b d]]; [by intros [= <-]|by destruct n|].
  assert (H1 : tr_last_type (rules_of n) =? 0 = negb (since Berlin n)) by (by destruct n).
  assert (H2 : 2 <=? tr_last_type (rules_of n) = since London n) by (by destruct n).
  rewrite H1, H2. destruct (since Berlin n) eqn:E; [|done]. cbn [negb].
  destruct (Byte.to_N b =? 1). { destruct (decode_to _ _); intros [= <-]. done. }
  destruct (since London n) eqn:E2; [|by rewrite andb_false_r].
  destruct (Byte.to_N b =? 2); [|done]. cbn [andb]. destruct (decode_to _ _); intros [= <-]. done.
Qed.
Theorem C69_roundtrip n tx : known n tx -> typed_tx tx -> lenN (wire tx) < 2 ^ 64 ->
  pow_decode_transaction (rules_of n) (encode_transaction tx) = Done tx.
Proof.
  intros Hk HT HL. assert (HK : known_in Osaka tx) by (by destruct tx). pose proof (C28_roundtrip Osaka tx HT HK HL) as H.
  assert (H1 : tr_last_type (rules_of n) =? 0 = negb (since Berlin n)) by (by destruct n).
  assert (H2 : 2 <=? tr_last_type (rules_of n) = since London n) by (by destruct n).
  destruct tx as [t|t|t|t|t]; cbn [known] in Hk; [done| | |done..];
    cbn [encode_transaction pow_decode_transaction decode_transaction] in *; rewrite H1.
  - rewrite Hk. cbn [negb]. exact H.
  - assert (Hb : since Berlin n = true) by (revert Hk; by destruct n). rewrite Hb, H2, Hk. exact H.
Qed.
(** Every other entry is refused, with the type in the error since Berlin. *)
Theorem C69_unknown_type n b data : since Berlin n = true ->
  Byte.to_N b <> 1 -> ~ (Byte.to_N b = 2 /\ since London n = true) ->
  pow_decode_transaction (rules_of n) (EBytes (b :: data)) =
  Fail (FInvalidTransaction (TransactionTypeError (Byte.to_N b))).
Proof.
  intros H0 Hb1 Hb2. cbn [pow_decode_transaction].
  assert (H1 : tr_last_type (rules_of n) =? 0 = negb (since Berlin n)) by (by destruct n).
  assert (H2 : 2 <=? tr_last_type (rules_of n) = since London n) by (by destruct n).
  rewrite H1, H0, H2. cbn [negb]. destruct (N.eqb_spec (Byte.to_N b) 1) as [|_]; [done|].
  destruct (N.eqb_spec (Byte.to_N b) 2); destruct (since London n); cbn [andb]; try done. tauto.
Qed.

(** From a fork to a later one, a valid transaction stays valid unless the
    creation price of Homestead is in between, and costs less only because of
    the data price of Istanbul. *)
Theorem C69_later n n' tx : generation n <= generation n' ->
  (n <> Frontier \/ is_creation tx = false -> intrinsic n' tx <= intrinsic n tx) /\
  (since Istanbul n = since Istanbul n' -> intrinsic n tx <= intrinsic n' tx).
Proof.
  intros H. unfold intrinsic.
  assert (A : since Istanbul n = true -> since Istanbul n' = true) by (unfold since; lia).
  assert (B : since Homestead n = true -> since Homestead n' = true) by (unfold since; lia).
  assert (C : n <> Frontier -> since Homestead n = true) by (by destruct n).
  generalize (nonzero_bytes (tx_data tx)). intros z.
  split.
  - intros H1. assert (D : is_creation tx && since Homestead n' = true -> is_creation tx && since Homestead n = true).
    { unfold since in *. destruct H1 as [H1|H1]; [|by rewrite H1]. specialize (C H1). rewrite C. by destruct (is_creation tx). }
    destruct (since Istanbul n); [rewrite A by done|destruct (since Istanbul n')];
      destruct (is_creation tx && since Homestead n'); try (rewrite D by done);
      destruct (is_creation tx && since Homestead n); lia.
  - intros ->. destruct (since Istanbul n'); destruct (is_creation tx); cbn [andb]; try lia;
      destruct (since Homestead n); try (rewrite B by done); destruct (since Homestead n'); lia.
Qed.

(** ** C70 *)

(** The order of secp256k1. *)
Definition group_order : N := 2 ^ 256 - 432420386565659656852420866394968145599.

(** The signed message and the parity of the signature: legacy transactions name
    no chain, or since Spurious Dragon (EIP-155) the chain [chain_id]. *)
Definition signs (n : pow_name) (chain_id : N) (tx : transaction) (parity : N) (m : signable) : Prop :=
  parity <= 1 /\
  match tx with
  | Legacy t =>
      (lt_v t = 27 + parity /\ m = SgPre155 t) \/
      (since SpuriousDragon n = true /\ lt_v t = 35 + 2 * chain_id + parity /\ m = Sg155 t chain_id)
  | AccessList t => at_y_parity t = parity /\ m = Sg2930 t
  | FeeMarket t => ft_y_parity t = parity /\ m = Sg1559 t
  | _ => False
  end.
(** The largest [s]: half the order since Homestead (EIP-2). *)
Definition s_bound (n : pow_name) : N :=
  if since Homestead n then group_order / 2 else group_order - 1.

Section Signatures.
  Context (cr : crypto).

  Lemma group_order_eq : SECP256K1N = group_order.
  Proof. reflexivity. Qed.

  Lemma s_bound_spec n s :
    (if tr_low_s (rules_of n) then SECP256K1N / 2 <? s else SECP256K1N <=? s) = false <-> s <= s_bound n.
  Proof.
    unfold s_bound. rewrite group_order_eq. assert (H : 0 < group_order) by reflexivity.
    assert (E : tr_low_s (rules_of n) = since Homestead n) by (by destruct n). rewrite E.
    revert H. generalize group_order. intros q Hq. destruct (since Homestead n); lia.
  Qed.

  (** The sender is the address of the key recovered from the signature, if [r],
      [s] and [v] are in range; nothing else is accepted. *)
  Theorem C70_sender n chain_id tx a :
    pow_recover_sender cr (rules_of n) chain_id tx = Done a <->
    exists parity m key, signs n chain_id tx parity m /\
      0 < tx_r tx < group_order /\ 0 < tx_s tx <= s_bound n /\
      secp256k1_recover cr (tx_r tx) (tx_s tx) parity (keccak256 cr (preimage m)) = Some key /\
      a = from_be_bytes (sliceN 12 32 (keccak256 cr key)).
  Proof.
    unfold pow_recover_sender. set (r := tx_r tx). set (s := tx_s tx).
    pose proof (s_bound_spec n s) as Hsb. rewrite group_order_eq in Hsb |- *.
    destruct (N.leb_spec r 0) as [|Hr].
    { split; [done|]. intros (? & ? & ? & ? & [? ?] & _). lia. }
    destruct (N.leb_spec group_order r) as [|Hr'].
    { split; [done|]. intros (? & ? & ? & ? & [? ?] & _). lia. }
    cbn [orb]. destruct (N.leb_spec s 0) as [|Hs].
    { split; [done|]. intros (? & ? & ? & ? & _ & [? ?] & _). lia. }
    cbn [orb]. destruct (if tr_low_s (rules_of n) then _ else _) eqn:El.
    { split; [done|]. intros (? & ? & ? & ? & _ & [_ H] & _). apply Hsb in H. done. }
    pose proof (proj1 Hsb eq_refl) as Hs'. clear Hsb El.
    assert (G : forall v x b,
      obind (recover_with cr r s v (keccak256 cr (preimage x)))
        (fun public_key => Done (from_be_bytes (sliceN 12 32 (keccak256 cr public_key)))) = Done b <->
      exists key, secp256k1_recover cr r s v (keccak256 cr (preimage x)) = Some key /\
        b = from_be_bytes (sliceN 12 32 (keccak256 cr key))).
    { intros v x b. unfold recover_with. destruct (secp256k1_recover cr r s v _) as [k|]; cbn [of_option obind].
      - split; [intros [= <-]; by exists k|]. by intros (? & [= <-] & ->).
      - split; [done|]. by intros (? & ? & _). }
    assert (GG : forall v x, (forall p m, signs n chain_id tx p m <-> p = v /\ m = x) ->
      obind (recover_with cr r s v (keccak256 cr (preimage x)))
        (fun public_key => Done (from_be_bytes (sliceN 12 32 (keccak256 cr public_key)))) = Done a <->
      exists parity m key, signs n chain_id tx parity m /\ 0 < r < group_order /\ 0 < s <= s_bound n /\
        secp256k1_recover cr r s parity (keccak256 cr (preimage m)) = Some key /\
        a = from_be_bytes (sliceN 12 32 (keccak256 cr key))).
    { intros v x HS. rewrite G. split.
      - intros (k & H1 & H2). exists v, x, k. split; [by apply HS|done].
      - intros (p & m & k & [-> ->]%HS & _ & _ & H). by exists k. }
    assert (NG : forall e, (forall p m, ~ signs n chain_id tx p m) ->
      (Fail e : outcome address) = Done a <->
      exists parity m key, signs n chain_id tx parity m /\ 0 < r < group_order /\ 0 < s <= s_bound n /\
        secp256k1_recover cr r s parity (keccak256 cr (preimage m)) = Some key /\
        a = from_be_bytes (sliceN 12 32 (keccak256 cr key))).
    { intros e H. split; [done|]. intros (p & m & ? & HS & _). by apply H in HS. }
    clearbody r s. clear G.
    assert (Ec : tr_chain_bound (rules_of n) = since SpuriousDragon n) by (by destruct n).
    destruct tx as [t|t|t|t|t].
    - destruct (N.eqb_spec (lt_v t) 27) as [E1|E1].
      { cbn [orb]. apply (GG _ (SgPre155 t)). intros p m. unfold signs. split; [|intros [-> ->]; lia || (split; [lia|left; split; [lia|done]])].
        intros (Hp & [[? ->]|(_ & ? & _)]); [split; [lia|done]|lia]. }
      destruct (N.eqb_spec (lt_v t) 28) as [E2|E2].
      { cbn [orb]. apply (GG _ (SgPre155 t)). intros p m. unfold signs. split; [|intros [-> ->]; (split; [lia|left; split; [lia|done]])].
        intros (Hp & [[? ->]|(_ & ? & _)]); [split; [lia|done]|lia]. }
      cbn [orb]. rewrite Ec. destruct (since SpuriousDragon n) eqn:Es.
      2:{ cbn [obind]. apply NG. intros p m. unfold signs. rewrite Es. intros (? & [[? _]|(? & _)]); [lia|done]. }
      destruct (N.eqb_spec (lt_v t) (35 + chain_id * 2)) as [E3|E3];
        [|destruct (N.eqb_spec (lt_v t) (36 + chain_id * 2)) as [E4|E4]]; cbn [negb andb].
      + apply (GG _ (Sg155 t chain_id)). intros p m. unfold signs. rewrite Es. split.
        * intros (Hp & [[? ->]|(_ & ? & ->)]); [lia|split; [lia|done]].
        * intros [-> ->]. split; [lia|]. right. split; [done|]. split; [lia|done].
      + apply (GG _ (Sg155 t chain_id)). intros p m. unfold signs. rewrite Es. split.
        * intros (Hp & [[? ->]|(_ & ? & ->)]); [lia|split; [lia|done]].
        * intros [-> ->]. split; [lia|]. right. split; [done|]. split; [lia|done].
      + apply NG. intros p m. unfold signs. rewrite Es. intros (? & [[? _]|(_ & ? & _)]); lia.
    - destruct (N.eqb_spec (at_y_parity t) 0) as [E|E], (N.eqb_spec (at_y_parity t) 1) as [E'|E']; cbn [orb negb].
      1-3: apply (GG _ (Sg2930 t)); intros p m; unfold signs; split;
        [intros (? & <- & ->); split; done|intros [-> ->]; split; [lia|done]].
      apply NG. intros p m. unfold signs. intros (? & ? & _). lia.
    - destruct (N.eqb_spec (ft_y_parity t) 0) as [E|E], (N.eqb_spec (ft_y_parity t) 1) as [E'|E']; cbn [orb negb].
      1-3: apply (GG _ (Sg1559 t)); intros p m; unfold signs; split;
        [intros (? & <- & ->); split; done|intros [-> ->]; split; [lia|done]].
      apply NG. intros p m. unfold signs. intros (? & ? & _). lia.
    - apply NG. intros p m. unfold signs. tauto.
    - apply NG. intros p m. unfold signs. tauto.
  Qed.
  (** Otherwise a known transaction is refused for its signature. *)
  Theorem C70_refused n chain_id tx : known n tx ->
    (exists a, pow_recover_sender cr (rules_of n) chain_id tx = Done a) \/
    pow_recover_sender cr (rules_of n) chain_id tx = Fail (FInvalidTransaction InvalidSignatureError).
  Proof.
    intros Hk. unfold pow_recover_sender, invalid.
    assert (G : forall v h, (exists a, obind (recover_with cr (tx_r tx) (tx_s tx) v h)
        (fun public_key => Done (from_be_bytes (sliceN 12 32 (keccak256 cr public_key)))) = Done a) \/
      obind (recover_with cr (tx_r tx) (tx_s tx) v h)
        (fun public_key => Done (from_be_bytes (sliceN 12 32 (keccak256 cr public_key)))) =
      Fail (FInvalidTransaction InvalidSignatureError)).
    { intros v h. unfold recover_with. destruct (secp256k1_recover _ _ _ _ _); cbn [of_option obind]; eauto. }
    destruct (_ || _); [by right|]. destruct (_ || _); [by right|].
    destruct tx as [t|t|t|t|t]; [| | |done..].
    - destruct (_ || _); [apply G|]. destruct (tr_chain_bound _); [|by right].
      destruct (_ && _); [by right|apply G].
    - destruct (negb _); [by right|apply G].
    - destruct (negb _); [by right|apply G].
  Qed.

  (** Two forks, or two chains, never disagree on the sender unless the signed
      messages differ: with the same chain they agree. *)
  Theorem C70_stable n n' chain_id tx a b :
    pow_recover_sender cr (rules_of n) chain_id tx = Done a ->
    pow_recover_sender cr (rules_of n') chain_id tx = Done b -> a = b.
  Proof.
    rewrite !C70_sender. intros (p & m & k & [Hp S1] & _ & _ & R1 & ->) (p' & m' & k' & [Hp' S2] & _ & _ & R2 & ->).
    assert (p = p' /\ m = m') as [<- <-].
    { destruct tx as [t|t|t|t|t]; [|split; [destruct S1, S2; congruence|destruct S1, S2; congruence]..|done|done].
      destruct S1 as [[? ->]|(_ & ? & ->)], S2 as [[? ->]|(_ & ? & ->)]; split; try done; lia. }
    rewrite R1 in R2. by injection R2 as ->.
  Qed.
  (** The rules since Spurious Dragon are those of Osaka. *)
  Theorem C70_osaka n chain_id tx : since SpuriousDragon n = true ->
    match tx with Legacy _ | AccessList _ | FeeMarket _ => True | _ => False end ->
    pow_recover_sender cr (rules_of n) chain_id tx = recover_sender cr chain_id tx.
  Proof.
    intros Hs Ht. unfold pow_recover_sender, recover_sender.
    assert (E1 : tr_low_s (rules_of n) = true) by (revert Hs; by destruct n).
    assert (E2 : tr_chain_bound (rules_of n) = true) by (revert Hs; by destruct n).
    rewrite E1, E2. by destruct tx.
  Qed.

  (** *** Malleability *)

  (** The other signature of the same message by the same key. *)
  Definition twin (t : legacy_tx) : legacy_tx :=
    LegacyTx (lt_nonce t) (lt_gas_price t) (lt_gas t) (lt_to t) (lt_value t) (lt_data t)
      (if decide (lt_v t = 27) then 28 else 27) (lt_r t) (group_order - lt_s t).
  (** ECDSA: (r, s) and (r, -s) belong to the keys of opposite parity. *)
  Definition symmetric : Prop := forall r s p h, 0 < s < group_order -> p <= 1 ->
    secp256k1_recover cr r (group_order - s) (1 - p) h = secp256k1_recover cr r s p h.

  (** In Frontier everyone can change the hash of a transaction: the twin of an
      accepted one is accepted, with the same sender, and differs. *)
  Theorem C70_malleability_refuted chain_id t a : symmetric ->
    pow_recover_sender cr (rules_of Frontier) chain_id (Legacy t) = Done a ->
    pow_recover_sender cr (rules_of Frontier) chain_id (Legacy (twin t)) = Done a /\ twin t <> t.
  Proof.
    intros Hsym H. apply C70_sender in H as (p & m & k & [Hp [[Hv ->]|[[=] _]]] & Hr & Hs & Hk & ->).
    cbn [tx_r tx_s] in *. change (s_bound Frontier) with (group_order - 1) in Hs.
    assert (Hq : 1 < group_order) by reflexivity. revert Hsym Hr Hs Hk Hq.
    unfold twin, symmetric. pose proof (C70_sender Frontier chain_id) as G. revert G.
    change (s_bound Frontier) with (group_order - 1). generalize group_order. intros q G Hsym Hr Hs Hk Hq.
    split.
    - apply G. eexists (1 - p), (SgPre155 _), k. cbn [tx_r tx_s].
      split. { split; [lia|]. left. cbn [lt_v]. split; [|reflexivity]. destruct (decide _); lia. }
      split; [exact Hr|]. split; [cbn [lt_s]; lia|]. cbn [lt_r lt_s]. rewrite Hsym by lia. done.
    - intros E. apply (f_equal lt_v) in E. cbn [lt_v] in E. destruct (decide _); lia.
  Qed.
  (** Since Homestead at most one of the two is. *)
  Theorem C70_not_malleable n chain_id tx tx' a : since Homestead n = true ->
    pow_recover_sender cr (rules_of n) chain_id tx = Done a ->
    tx_s tx + tx_s tx' = group_order ->
    forall b, pow_recover_sender cr (rules_of n) chain_id tx' <> Done b.
  Proof.
    intros Hn H E b H'. apply C70_sender in H as (_ & _ & _ & _ & _ & Hs & _).
    apply C70_sender in H' as (_ & _ & _ & _ & _ & Hs' & _).
    unfold s_bound in *. rewrite Hn in *.
    assert (Ho : group_order = 2 * (group_order / 2) + 1) by reflexivity.
    revert Ho Hs Hs' E. generalize group_order. intros q. generalize (q / 2). lia.
  Qed.

  (** *** Replay *)

  (** Before Spurious Dragon no transaction is bound to a chain. *)
  Theorem C70_replay_refuted n c c' tx : since SpuriousDragon n = false ->
    pow_recover_sender cr (rules_of n) c tx = pow_recover_sender cr (rules_of n) c' tx.
  Proof.
    intros H. unfold pow_recover_sender.
    assert (E : tr_chain_bound (rules_of n) = false) by (revert H; by destruct n). by rewrite E.
  Qed.
  (** Since then legacy transactions whose [v] names a chain are. *)
  Theorem C70_chain n chain_id t c : lt_v t = 35 + 2 * c \/ lt_v t = 36 + 2 * c -> c <> chain_id ->
    forall a, pow_recover_sender cr (rules_of n) chain_id (Legacy t) <> Done a.
  Proof.
    intros Hv Hc a H. apply C70_sender in H as (p & m & k & [Hp [[E _]|(_ & E & _)]] & _); lia.
  Qed.
  (** The chain id of a typed transaction is signed but never compared. *)
  Theorem C70_typed_refuted n c c' tx : (forall t, tx <> Legacy t) ->
    pow_recover_sender cr (rules_of n) c tx = pow_recover_sender cr (rules_of n) c' tx.
  Proof. intros H. destruct tx; try done. by destruct (H t). Qed.
End Signatures.

(** ** Concrete cases *)
Example C69_nonvacuous :
  let create := Legacy ex_create in
  map (fun n => pow_intrinsic_cost (rules_of n) create) [Frontier; Homestead; Istanbul; GrayGlacier] =
    [21000 + 8 + 136; 53000 + 8 + 136; 53000 + 8 + 32; 53000 + 8 + 32] /\
  pow_validate_transaction (rules_of Byzantium) create = Done 53144 /\
  pow_validate_transaction (rules_of Berlin) (AccessList ex_2930) = Done (21000 + 4 + 32 + 4800 + 3800) /\
  known Berlin (AccessList ex_2930) /\ ~ known Berlin (FeeMarket ex_1559) /\ known London (FeeMarket ex_1559) /\
  pow_decode_transaction (rules_of London) (encode_transaction (FeeMarket ex_1559)) = Done (FeeMarket ex_1559) /\
  pow_decode_transaction (rules_of Berlin) (encode_transaction (FeeMarket ex_1559)) =
    Fail (FInvalidTransaction (TransactionTypeError 2)).
Proof. vm_compute. repeat split; done. Qed.

(** Recovery that finds the same key whatever the signature. *)
Definition one_key_crypto : crypto := {|
  keccak256 := toy_hash; sha256_digest := toy_hash; ripemd160_digest := toy_hash;
  secp256k1_recover := fun r s v h => Some (bs [1; 2; 3]); secp256r1_verify := fun _ _ _ _ _ => false;
  bn128_add := fun p _ => p; bn128_mul := fun p _ => p;
  bn128_g2_mul := fun p _ => p; bn128_pairing_is_one := fun _ => true;
  bls_g1_add := fun p _ => p; bls_g1_mul := fun p _ => p; bls_g2_add := fun p _ => p;
  bls_g2_mul := fun p _ => p; bls_g2_neg := fun p => p; bls_map_to_g1 := fun x => (x, x);
  bls_map_to_g2 := fun x => (x, x); bls_pairing_is_one := fun _ => true;
  bls_g1_generator := (1, 2); bls_g2_generator := ((1, 2), (3, 4));
  bls_pubkey_to_g1 := fun _ => None; bls_signature_to_g2 := fun _ => None;
  bls_key_validate := fun _ => false |}.
Definition is_done {A} (x : outcome A) : bool := match x with Done _ => true | _ => false end.
Example C70_nonvacuous :
  symmetric one_key_crypto /\
  map (fun n => is_done (pow_recover_sender one_key_crypto (rules_of n) 1 (Legacy ex_create)))
    [Frontier; Homestead; GrayGlacier] = [true; true; true] /\
  map (fun n => is_done (pow_recover_sender one_key_crypto (rules_of n) 1 (Legacy (twin ex_create))))
    [Frontier; Homestead; GrayGlacier] = [true; false; false] /\
  map (fun n => is_done (pow_recover_sender one_key_crypto (rules_of n) 1 (Legacy ex_legacy)))
    [TangerineWhistle; SpuriousDragon; GrayGlacier] = [false; true; true] /\
  map (fun c => is_done (pow_recover_sender one_key_crypto (rules_of London) c (Legacy ex_legacy)))
    [1; 2] = [true; false] /\
  map (fun c => is_done (pow_recover_sender one_key_crypto (rules_of London) c (FeeMarket ex_1559)))
    [1; 2] = [true; true].
Proof. split; [by intros r s p h|]. vm_compute. repeat split. Qed.

Definition PropPowTx_theorems :=
  (@C69_intrinsic, @C69_validate, @C69_invalid, @C69_known, @C69_roundtrip, @C69_unknown_type, @C69_later,
   @C70_sender, @C70_refused, @C70_stable, @C70_osaka, @C70_malleability_refuted, @C70_not_malleable,
   @C70_replay_refuted, @C70_chain, @C70_typed_refuted).
Print Assumptions PropPowTx_theorems.
