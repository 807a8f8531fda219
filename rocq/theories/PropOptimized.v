(** * PropOptimized: the optimized proof-of-work check decides as the plain one
    (C93) *)
From Coq Require Import ZifyBool ZifyN ZifyNat.
From Verif Require Import Base PrecompileSpec State Rlp RlpProofs Vm StateSpec StateProofs EvmExamples
  PropTx PropBlocks Transactions NumericProofs Trie Blocks Requests Fork ForkProofs ForkExamples PropFees PropChain
  PropHeader Ethash PropEthash Pow PropDifficulty PropPow PropOmmers PropRewards PropPowExamples OptimizedPow.
Ltac Zify.zify_post_hook ::= idtac.

(** What the library is for: it accepts the digest of Ethash in the given
    epoch, if the result, as a number, is at most the boundary.  Epochs from
    65409 on do not fit the 32 bits of Ethash. *)
Definition verifies (k256 k512 : bytes -> bytes) (verify : N -> bytes -> bytes -> N -> bytes -> bool) : Prop :=
  forall epoch hash digest nonce boundary, epoch < 65409 -> nonce < 2 ^ 64 -> lenN boundary = 32 ->
    verify epoch hash digest nonce boundary = true <->
    exists result,
      ethash k256 k512 (N.iter epoch k256 (zeros 32)) (30000 * epoch) hash (to_be_fixed 8 nonce) digest result /\
      from_be_bytes result <= from_be_bytes boundary.

Lemma epoch_start n : 30000 * (n / 30000) / 30000 = n / 30000.
Proof. rewrite N.mul_comm. by apply N.div_mul. Qed.
Lemma ethash_epoch k256 k512 seed n hash nonce digest result :
  ethash k256 k512 seed (30000 * (n / 30000)) hash nonce digest result <->
  ethash k256 k512 seed n hash nonce digest result.
Proof. unfold ethash. by rewrite epoch_start. Qed.

(** The seal is judged alike.  For difficulty 1 the boundary has no 32 bytes. *)
Theorem C93_seal cr k512 verify h : verifies (keccak256 cr) k512 verify -> digests64 k512 ->
  ph_number h < 1962270000 -> lenN (ph_nonce h) = 8 -> 2 <= ph_difficulty h ->
  optimized_proof_of_work cr verify h = validate_proof_of_work cr k512 h.
Proof.
  intros Hv H64 Hn Hno Hd.
  destruct (C63_proof_of_work cr k512 h H64 Hn) as (digest & result & He & ->); [lia|].
  rewrite unsealed_eq in He.
  unfold optimized_proof_of_work, udiv. destruct (N.eqb_spec (ph_difficulty h) 0) as [|Hz]; [lia|]. cbn [obind].
  assert (Hlim : 2 ^ 256 / ph_difficulty h < 2 ^ 256) by (apply N.div_lt; [done|lia]).
  unfold bytes32_of. rewrite (proj2 (N.ltb_lt _ _) Hlim). cbn [obind].
  assert (Hep : epoch (ph_number h) = ph_number h / 30000) by done.
  specialize (Hv (epoch (ph_number h)) (generate_header_hash_for_pow cr h) (ph_mix_digest h)
    (from_be_bytes (ph_nonce h)) (to_be_bytes32 (2 ^ 256 / ph_difficulty h))).
  rewrite from_to_be_bytes32 in Hv by done.
  assert (Hnn : to_be_fixed 8 (from_be_bytes (ph_nonce h)) = ph_nonce h).
  { rewrite <- (to_from_be_fixed (ph_nonce h)) at 2. f_equal. unfold lenN in Hno. lia. }
  rewrite Hnn in Hv. specialize (Hv ltac:(rewrite Hep; apply N.div_lt_upper_bound; lia)).
  specialize (Hv ltac:(pose proof (from_be_lt (ph_nonce h)) as Hb; rewrite Hno in Hb; exact Hb)).
  specialize (Hv ltac:(apply to_be_fixed_len)). rewrite Hep in Hv. rewrite Hep.
  assert (Hle : from_be_bytes result <= 2 ^ 256 / ph_difficulty h <-> from_be_bytes result * ph_difficulty h <= 2 ^ 256).
  { rewrite N.mul_comm. generalize (2 ^ 256) as x. intros x. clear -Hz. split.
    - intros H. pose proof (N.mul_div_le x (ph_difficulty h) Hz). nia.
    - intros H. by apply N.div_le_lower_bound. }
  unfold check. destruct (verify _ _ _ _ _).
  - destruct Hv as [Hv _]. destruct (Hv eq_refl) as (result' & Hr & Hb). apply -> ethash_epoch in Hr.
    destruct (C63_ethash_unique cr k512 _ _ _ _ _ _ _ H64 Hn He Hr) as [-> ->].
    rewrite (proj2 (bytes_eqb_eq _ _)) by done. by rewrite (proj2 (N.leb_le _ _)) by (by apply Hle).
  - destruct Hv as [_ Hv]. destruct (bytes_eqb _ _) eqn:E; [|done]. apply bytes_eqb_eq in E as ->.
    destruct (N.leb_spec (from_be_bytes result * ph_difficulty h) (2 ^ 256)) as [Hb|]; [|done].
    exfalso. assert (false = true); [|done]. apply Hv. exists result. split; [apply <- ethash_epoch; exact He|by apply Hle].
Qed.

(** ** Whole blocks *)
Lemma difficulty_minimum rule number time ptime pd ommers d :
  calculate_block_difficulty rule number time ptime pd ommers = Done d -> 131072 <= d.
Proof.
  assert (G : forall x, 131072 <= Z.to_N (Z.max x (Z.of_N MINIMUM_DIFFICULTY))).
  { intros x. change (Z.of_N MINIMUM_DIFFICULTY) with 131072%Z. lia. }
  destruct rule; cbn [calculate_block_difficulty];
    unfold frontier_difficulty, homestead_difficulty, byzantium_difficulty; intros H;
    repeat match type of H with obind ?o _ = _ => destruct o; cbn [obind] in H; [|done] end;
    injection H as <-; apply G.
Qed.

Section blocks.
  Context (cr : crypto) (k512 : bytes -> bytes) (verify : N -> bytes -> bytes -> N -> bytes -> bool) (f : pow_fork).
  Context {tx : Type} (execute : pow_chain tx -> pow_header -> list tx -> sm pow_output).
  Context (Hv : verifies (keccak256 cr) k512 verify) (H64 : digests64 k512).
  Notation optimized := (optimized_proof_of_work cr verify).

  Lemma patched_split work (chain : pow_chain tx) h : patched_header cr work f chain h =
    (_ <~ header_checks cr f chain h ;; work h).
  Proof using.
    unfold patched_header, header_checks. repeat (rewrite obind_assoc; apply obind_cong; intros). done.
  Qed.
  Lemma checked_difficulty (chain : pow_chain tx) h : header_checks cr f chain h = Done tt -> 131072 <= ph_difficulty h.
  Proof using.
    unfold header_checks. intros H.
    repeat match type of H with
      | obind (calculate_block_difficulty _ _ _ _ _ _) _ = _ => fail 1
      | obind ?o _ = _ => destruct o; cbn [obind] in H; [|done]; cbv zeta in H
      end.
    destruct (calculate_block_difficulty _ _ _ _ _ _) as [d|] eqn:E; cbn [obind] in H; [|done].
    apply difficulty_minimum in E. unfold check at 1 in H.
    destruct (N.eqb_spec (ph_difficulty h) d) as [->|]; [done|]. done.
  Qed.

  (** Headers are judged alike, whatever their difficulty: it is compared with
      the one of the fork, which is at least 131072, before the seal. *)
  Theorem C93_header (chain : pow_chain tx) h : ph_number h < 1962270000 -> lenN (ph_nonce h) = 8 ->
    patched_header cr optimized f chain h = validate_header cr k512 f chain h.
  Proof using Hv H64.
    intros Hn Hl. rewrite patched_split, validate_header_split.
    destruct (header_checks cr f chain h) as [[]|] eqn:E; [|done]. cbn [obind].
    apply checked_difficulty in E. assert (2 <= ph_difficulty h) by (clear -E; lia). by apply C93_seal.
  Qed.
  Lemma patched_ommers_eq ommers h (chain : pow_chain tx) : ph_number h < 1962270000 ->
    Forall (fun o => lenN (ph_nonce o) = 8) ommers ->
    patched_ommers cr optimized f ommers h chain = validate_ommers cr k512 f ommers h chain.
  Proof using Hv H64.
    intros Hn H. unfold patched_ommers, validate_ommers.
    assert (patched_ommer_headers cr optimized f chain (ph_number h) ommers
      = validate_ommer_headers cr k512 f chain (ph_number h) ommers) as ->; [|done].
    induction H as [|o l Ho _ IH]; [done|]. cbn [validate_ommer_headers patched_ommer_headers].
    rewrite IH. destruct (1 <=? ph_number o); cbn [check obind]; [|done].
    destruct (N.ltb_spec (ph_number o) (ph_number h)) as [Hlt|]; cbn [check obind]; [|done].
    assert (ph_number o < 1962270000) by (clear -Hlt Hn; lia). by rewrite C93_header.
  Qed.
  (** The functions of OptimizedPow are those of Pow, but for the parameter. *)
  Lemma patched_plain (chain : pow_chain tx) b :
    patched_transition cr (validate_proof_of_work cr k512) f execute chain b = state_transition cr k512 f execute chain b.
  Proof using. reflexivity. Qed.
  (** So is every block: same result, same chain afterwards. *)
  Theorem C93_block (chain : pow_chain tx) b : ph_number (pb_header b) < 1962270000 ->
    lenN (ph_nonce (pb_header b)) = 8 -> Forall (fun o => lenN (ph_nonce o) = 8) (pb_ommers b) ->
    patched_transition cr optimized f execute chain b = state_transition cr k512 f execute chain b.
  Proof using Hv H64.
    intros Hn Hl Ho. unfold patched_transition, state_transition.
    by rewrite C93_header, patched_ommers_eq by done.
  Qed.
End blocks.

(** ** A library that verifies: the functions of ethash.py at the first block of
    the epoch *)
Definition plain_verify (cr : crypto) (k512 : bytes -> bytes) (epoch : N) (hash digest : bytes) (nonce : N)
    (boundary : bytes) : bool :=
  match (cache <~ generate_cache cr k512 (30000 * epoch) ;;
         size <~ dataset_size (30000 * epoch) ;;
         hashimoto_light cr k512 hash (to_be_fixed 8 nonce) cache size) with
  | Done (d, result) => bytes_eqb d digest && (from_be_bytes result <=? from_be_bytes boundary)
  | Fail _ => false
  end.
Theorem C93_library cr k512 : digests64 k512 -> verifies (keccak256 cr) k512 (plain_verify cr k512).
Proof.
  intros H64 e hash digest nonce boundary He Hno Hb.
  assert (Hn : 30000 * e < 1962270000) by lia. set (n := 30000 * e) in *. set (no := to_be_fixed 8 nonce).
  assert (Hs : N.iter e (keccak256 cr) (zeros 32) = generate_seed cr n).
  { unfold generate_seed. f_equal. unfold epoch, n. change EPOCH_SIZE with 30000. rewrite N.mul_comm. by rewrite N.div_mul. }
  rewrite Hs.
  destruct (C61_light cr k512 n hash no H64 Hn)
    as (p & cache & dataset & d & result & Hp & Hsize & Hcache & _ & _ & Hitems & _ & Hlight & Hof).
  destruct (C61_cache cr k512 n H64) as (q & R & cache' & Hq & Hcache' & Hlen & Hrows & Hwords); [lia|].
  assert (cache' = cache) as -> by congruence.
  assert (HE : ethash (keccak256 cr) k512 (generate_seed cr n) n hash no d result).
  { exists q, R, cache, p, (row dataset). done. }
  unfold plain_verify. fold n no. rewrite Hcache, Hsize. cbn [obind]. rewrite Hlight.
  rewrite andb_true_iff, bytes_eqb_eq, N.leb_le. split.
  - intros [<- H]. by exists result.
  - intros (r & Hr & H). destruct (C63_ethash_unique cr k512 _ _ _ _ _ _ _ H64 Hn HE Hr) as [-> ->]. done.
Qed.

(** ** Difficulty 1 *)
(** Outside of a block the two checks differ: at difficulty 1 every result is
    small enough, but the optimized check raises OverflowError. *)
Definition trivial_header : pow_header :=
  PowHeader (zeros 32) easy_empty 0 (zeros 32) [] [] [] 1 0 5000 0 1000 [] (zeros 32) (zeros 8) None.
Theorem C93_seal_refuted : exists cr k512 h, digests64 k512 /\ lenN (ph_nonce h) = 8 /\ ph_difficulty h = 1 /\
  validate_proof_of_work cr k512 h = Done tt /\
  forall verify, optimized_proof_of_work cr verify h = Fail (FCrash OverflowError).
Proof.
  exists easy_crypto, zero512, trivial_header. split; [apply zero512_digests|]. split; [done|]. split; [done|].
  split; [|intros verify; reflexivity]. apply zero_work; [done|done|done|]. vm_compute. discriminate.
Qed.

(** ** A concrete case: the block [easy_b1] of PropPowExamples is accepted with
    the library above. *)
Example C93_nonvacuous :
  digests64 zero512 /\ verifies (keccak256 easy_crypto) zero512 (plain_verify easy_crypto zero512) /\
  lenN (ph_nonce (pb_header easy_b1)) = 8 /\ pb_ommers easy_b1 = [] /\
  fst (patched_transition easy_crypto (optimized_proof_of_work easy_crypto (plain_verify easy_crypto zero512))
         byzantium no_txs easy_chain easy_b1) = Done tt.
Proof.
  pose proof zero512_digests as H64. pose proof (C93_library easy_crypto zero512 H64) as Hv.
  split; [done|]. split; [done|]. split; [reflexivity|]. split; [reflexivity|].
  rewrite (C93_block easy_crypto zero512) by (done || constructor).
  rewrite transition_fast; [vm_compute; reflexivity| |constructor].
  apply zero_work; [done|done|reflexivity|]. vm_compute. discriminate.
Qed.

Definition PropOptimized_theorems := (@C93_seal, @C93_header, @C93_block, @C93_library, @C93_seal_refuted).
Print Assumptions PropOptimized_theorems.
