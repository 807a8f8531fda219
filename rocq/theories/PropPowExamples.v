(** * PropPowExamples: concrete chains of the proof-of-work forks, and what
    the code accepts that it should not (C63-C66) *)
From Coq Require Import ZifyBool ZifyN ZifyNat.
From Verif Require Import Base PrecompileSpec State Rlp RlpProofs Vm StateSpec StateProofs EvmExamples
  PropTx PropBlocks Transactions NumericProofs Trie Blocks Requests Fork ForkProofs ForkExamples PropFees PropChain
  PropHeader Ethash PropEthash Pow PropDifficulty PropPow PropOmmers PropRewards.
Ltac Zify.zify_post_hook ::= idtac.

(** ** Hashes for which the proof of work is known

    The hash of 64 bytes is zero; that of 32 bytes mixes its input and begins
    with three zero bytes, so that every result is small. *)
Definition zero512 (b : bytes) : bytes := zeros 64.
Definition easy256 (b : bytes) : bytes :=
  zeros 3 ++ to_be_fixed 29 (fold_left (fun x c => (x * 257 + Byte.to_N c + 1) mod 2 ^ 32) b 7).
Definition easy_crypto : crypto := {|
  keccak256 := easy256; sha256_digest := toy_hash;
  ripemd160_digest := fun b => takeN 20 (toy_hash b);
  secp256k1_recover := fun r _ _ _ => Some (zeros 12 ++ to_be_bytes20 r);
  secp256r1_verify := fun _ _ _ _ _ => false;
  bn128_add := fun p _ => p; bn128_mul := fun p _ => p;
  bn128_g2_mul := fun p _ => p; bn128_pairing_is_one := fun _ => true;
  bls_g1_add := fun p _ => p; bls_g1_mul := fun p _ => p; bls_g2_add := fun p _ => p;
  bls_g2_mul := fun p _ => p; bls_g2_neg := fun p => p; bls_map_to_g1 := fun x => (x, x);
  bls_map_to_g2 := fun x => (x, x); bls_pairing_is_one := fun _ => true;
  bls_g1_generator := (1, 2); bls_g2_generator := ((1, 2), (3, 4));
  bls_pubkey_to_g1 := fun _ => None; bls_signature_to_g2 := fun _ => None;
  bls_key_validate := fun _ => false |}.

Lemma zero512_digests : digests64 zero512.
Proof. done. Qed.
Lemma zero_word k : k < 16 -> word32 (zeros 64) k = 0.
Proof.
  intros H. assert (k = 0 \/ k = 1 \/ k = 2 \/ k = 3 \/ k = 4 \/ k = 5 \/ k = 6 \/ k = 7 \/ k = 8 \/
    k = 9 \/ k = 10 \/ k = 11 \/ k = 12 \/ k = 13 \/ k = 14 \/ k = 15) as Hk by lia.
  repeat (destruct Hk as [->|Hk]; [vm_compute; reflexivity|]). subst k. vm_compute. reflexivity.
Qed.
Lemma zero_hashimoto k256 hash nonce p (D : N -> bytes) digest result :
  0 < p -> (forall i, i < 2 * p -> D i = zeros 64) ->
  hashimoto_of k256 zero512 hash nonce p D digest result ->
  digest = zeros 32 /\ result = k256 (zeros 64 ++ zeros 32).
Proof.
  intros Hp HD (m & A1 & A2 & A3 & A4 & A5 & ->). unfold zero512 in *.
  assert (Hm : forall i, i <= 64 -> forall k, k < 32 -> word (m i) k = 0).
  { induction i as [|i IH] using N.peano_ind; intros Hi k Hk.
    - rewrite A2 by done. apply zero_word. apply N.mod_lt. done.
    - rewrite <- N.add_1_r. destruct (A3 i) as [_ H]; [lia|]. rewrite H by done. rewrite (IH ltac:(lia) k Hk).
      rewrite HD.
      + rewrite zero_word by (apply N.mod_lt; done). reflexivity.
      + assert (k / 16 < 2) by (apply N.div_lt_upper_bound; lia).
        match goal with |- 2 * ?x + _ < _ => assert (x < p) by (apply N.mod_lt; lia) end. lia. }
  assert (digest = zeros 32) as ->; [|done].
  apply (words_of_bytes_unique _ _ 8 (repeat 0 8)); [done|done| |].
  - split; [done|]. intros k Hk. rewrite A5 by done. rewrite !Hm by lia.
    assert (k = 0 \/ k = 1 \/ k = 2 \/ k = 3 \/ k = 4 \/ k = 5 \/ k = 6 \/ k = 7) as Hk' by lia.
    repeat (destruct Hk' as [->|Hk']; [reflexivity|]). by subst k.
  - split; [done|]. intros k Hk.
    assert (k = 0 \/ k = 1 \/ k = 2 \/ k = 3 \/ k = 4 \/ k = 5 \/ k = 6 \/ k = 7) as Hk' by lia.
    repeat (destruct Hk' as [->|Hk']; [reflexivity|]). by subst k.
Qed.
Lemma zero_work C h : ph_number h < 1962270000 -> 0 < ph_difficulty h ->
  ph_mix_digest h = zeros 32 ->
  from_be_bytes (keccak256 C (zeros 64 ++ zeros 32)) * ph_difficulty h <= 2 ^ 256 ->
  validate_proof_of_work C zero512 h = Done tt.
Proof.
  intros Hn Hd Hm Hr.
  destruct (C63_proof_of_work C zero512 h zero512_digests Hn Hd) as (digest & result & He & ->).
  destruct He as (q & R & cache & p & D & _ & _ & _ & _ & Hp & HD & Hh).
  apply zero_hashimoto in Hh as [-> ->].
  - rewrite Hm, (proj2 (bytes_eqb_eq _ _)) by done. by rewrite (proj2 (N.leb_le _ _)).
  - destruct Hp as ([Hp _] & _). lia.
  - intros i Hi. destruct (HD i Hi) as (b & g & m & _ & _ & _ & _ & _ & _ & ->). done.
Qed.

(** ** The transition without the proof of work *)
Section fast.
  Context (cr : crypto) (k512 : bytes -> bytes) (f : pow_fork) {tx : Type}.
  Context (execute : pow_chain tx -> pow_header -> list tx -> sm pow_output).
  Implicit Types (c : pow_chain tx).

  Fixpoint fast_ommer_headers c (n : N) (ommers : list pow_header) : outcome unit :=
    match ommers with
    | [] => Done tt
    | o :: ommers =>
        _ <~ check (1 <=? ph_number o) ;;
        _ <~ check (ph_number o <? n) ;;
        _ <~ header_checks cr f c o ;;
        fast_ommer_headers c n ommers
    end.
  Definition fast_ommers (ommers : list pow_header) (h : pow_header) c : outcome unit :=
    _ <~ check (bytes_eqb (ommers_hash cr ommers) (ph_ommers_hash h)) ;;
    match ommers with
    | [] => Done tt
    | _ =>
        _ <~ fast_ommer_headers c (ph_number h) ommers ;;
        _ <~ check (lenN ommers <=? 2) ;;
        _ <~ check (bool_decide (NoDup (map (pow_hash cr) ommers))) ;;
        let recent := lastN (MAX_OMMER_DEPTH + 1) (pc_blocks c) in
        let canonical := map (fun b => pow_hash cr (pb_header b)) recent in
        let included := concat (map (fun b => map (pow_hash cr) (pb_ommers b)) recent) in
        validate_ommer_ages cr h canonical included ommers
    end.
  Definition fast_header c (h : pow_header) : outcome unit := header_checks cr f c h.
  Definition fast_transition c (b : pow_block tx) : outcome unit * pow_chain tx :=
    let h := pb_header b in
    match (_ <~ fast_header c h ;; fast_ommers (pb_ommers b) h c) with
    | Fail e => (Fail e, c)
    | Done _ =>
        match apply_body f execute c b (pc_state c) with
        | (Fail e, s) => (Fail e, PowChain (pc_blocks c) s (pc_chain_id c))
        | (Done output, s) =>
            match (block_state_root <~ of_option (FCrash AssertionError) (state_root cr s) ;;
                   _ <~ check (po_gas_used output =? ph_gas_used h) ;;
                   _ <~ check (bytes_eqb (po_transactions_root output) (ph_transactions_root h)) ;;
                   _ <~ check (bytes_eqb block_state_root (ph_state_root h)) ;;
                   _ <~ check (bytes_eqb (po_receipt_root output) (ph_receipt_root h)) ;;
                   check (bytes_eqb (po_bloom output) (ph_bloom h))) with
            | Fail e => (Fail e, PowChain (pc_blocks c) s (pc_chain_id c))
            | Done _ =>
                let blocks := pc_blocks c ++ [b] in
                (Done tt, PowChain (if 255 <? lenN blocks then lastN 255 blocks else blocks) s
                            (pc_chain_id c))
            end
        end
    end.

  Definition worked (h : pow_header) : Prop := validate_proof_of_work cr k512 h = Done tt.
  Lemma header_fast c h : worked h -> validate_header cr k512 f c h = fast_header c h.
  Proof using.
    intros H. rewrite validate_header_split. unfold fast_header.
    by destruct (header_checks cr f c h) as [[]|].
  Qed.
  Lemma ommers_fast ommers h c : Forall worked ommers ->
    validate_ommers cr k512 f ommers h c = fast_ommers ommers h c.
  Proof using.
    intros H. unfold validate_ommers, fast_ommers.
    assert (validate_ommer_headers cr k512 f c (ph_number h) ommers
      = fast_ommer_headers c (ph_number h) ommers) as ->; [|done].
    induction H as [|o l Ho _ IH]; [done|]. cbn [validate_ommer_headers fast_ommer_headers].
    rewrite (header_fast c o Ho), IH. done.
  Qed.
  Lemma transition_fast c b : worked (pb_header b) -> Forall worked (pb_ommers b) ->
    state_transition cr k512 f execute c b = fast_transition c b.
  Proof using.
    intros H1 H2. unfold state_transition, fast_transition. rewrite header_fast, ommers_fast by done. done.
  Qed.
End fast.

(** ** A chain of Byzantium blocks without transactions *)
Definition no_txs (c : pow_chain unit) (h : pow_header) (l : list unit) : sm pow_output :=
  sret (PowOutput 0 [] [] []).
Definition easy_empty : bytes := EMPTY_OMMER_HASH easy_crypto.
Definition easy_genesis : pow_block unit :=
  PowBlock (PowHeader (zeros 32) easy_empty 0 (zeros 32) [] [] [] 131072 0 5000 0 1000 []
              (zeros 32) (zeros 8) None) [] [].
Definition easy_chain : pow_chain unit :=
  PowChain [easy_genesis] (toy_state [(0xaaaa, Account 0 100 [])] ∅) 1.
(** A block of [miner] after [parent], on top of the state of [c] *)
Definition easy_block (f : pow_fork) (c : pow_chain unit) (parent : pow_header) (miner : address)
    (ommers : list pow_header) : pow_block unit :=
  let h root := PowHeader (pow_hash easy_crypto parent) (ommers_hash easy_crypto ommers) miner root
    [] [] [] 131072 (ph_number parent + 1) (ph_gas_limit parent) 0 (ph_timestamp parent + 10) []
    (zeros 32) (zeros 8) None in
  let b root := PowBlock (h root) [] ommers in
  let s := snd (apply_body f no_txs c (b []) (pc_state c)) in
  b (default [] (state_root easy_crypto s)).
Definition easy_step (c : pow_chain unit) (b : pow_block unit) : pow_chain unit :=
  PowChain (pc_blocks c ++ [b]) (snd (apply_body byzantium no_txs c b (pc_state c))) 1.

Definition easy_b1 : pow_block unit :=
  Eval vm_compute in easy_block byzantium easy_chain (pb_header easy_genesis) 0xc1 [].
Definition easy_c1 : pow_chain unit := easy_step easy_chain easy_b1.
(** A competing block 1, and a block 2 that includes it *)
Definition easy_uncle : pow_block unit :=
  Eval vm_compute in easy_block byzantium easy_chain (pb_header easy_genesis) 0xc2 [].
Definition easy_b2 : pow_block unit :=
  Eval vm_compute in easy_block byzantium easy_c1 (pb_header easy_b1) 0xc1 [pb_header easy_uncle].
Definition easy_c2 : pow_chain unit := easy_step easy_c1 easy_b2.
(** A block 3 that includes it again *)
Definition easy_b3 : pow_block unit :=
  Eval vm_compute in easy_block byzantium easy_c2 (pb_header easy_b2) 0xc3 [pb_header easy_uncle].
(** A block 2 put on top of block 2 *)
Definition easy_b2' : pow_block unit :=
  Eval vm_compute in easy_block byzantium easy_c2 (pb_header easy_b1) 0xc4 [].

Ltac easy_worked := apply zero_work; [reflexivity|reflexivity|reflexivity|vm_compute; discriminate].

Notation easy_transition := (state_transition easy_crypto zero512 byzantium no_txs).
Lemma easy_accept1 : easy_transition easy_chain easy_b1 = (Done tt, easy_c1).
Proof.
  rewrite transition_fast; [|easy_worked|constructor].
  unfold easy_c1, easy_step. apply injective_projections; vm_compute; reflexivity.
Qed.
Lemma easy_uncle_worked : Forall (worked easy_crypto zero512) [pb_header easy_uncle].
Proof. constructor; [easy_worked|constructor]. Qed.
Lemma easy_accept2 : easy_transition easy_c1 easy_b2 = (Done tt, easy_c2).
Proof.
  rewrite transition_fast; [|easy_worked|exact easy_uncle_worked].
  unfold easy_c2, easy_step. apply injective_projections; vm_compute; reflexivity.
Qed.

(** The chain with its ommer, and the rewards *)
Example C64_nonvacuous :
  pow_history easy_crypto zero512 byzantium no_txs easy_chain easy_c2 [easy_genesis; easy_b1; easy_b2] /\
  consecutive [easy_genesis; easy_b1; easy_b2] /\ pb_ommers easy_b2 = [pb_header easy_uncle] /\
  fst (easy_transition easy_c2 easy_b3) = Fail FInvalidBlock.
Proof.
  split; [|split; [|split]].
  - apply (ph_accept _ _ _ _ _ easy_c1 [easy_genesis; easy_b1] easy_b2); [|exact easy_accept2].
    apply (ph_accept _ _ _ _ _ easy_chain [easy_genesis] easy_b1); [|exact easy_accept1].
    apply ph_start.
  - intros [|[|[|i]]] b b' H H'; cbn [nth_error] in H, H'; try (by destruct i); try discriminate H';
      apply (inj Some) in H; apply (inj Some) in H'; subst b b'; vm_compute; reflexivity.
  - reflexivity.
  - rewrite transition_fast; [|easy_worked|exact easy_uncle_worked].
    vm_compute. reflexivity.
Qed.
Example C65_nonvacuous :
  payments (3 * ETHER) 2 0xc1 (pb_ommers easy_b2)
    = [(0xc1, 3 * ETHER + 93750000000000000); (0xc2, 2625000000000000000)] /\
  map (fun a => balance (get_account (pc_state easy_c2) a)) [0xaaaa; 0xc1; 0xc2]
    = [100; 6 * ETHER + 93750000000000000; 2625000000000000000].
Proof. split; vm_compute; reflexivity. Qed.

(** ** What is accepted but should not be *)

(** A block is accepted on top of the chain although its parent is not the
    last block: the parent is looked up by number. The state of the last block
    is used, and the chain is no longer consecutive. *)
Theorem C63_tip_refuted :
  exists (c : pow_chain unit) b c' tip,
    consecutive (pc_blocks c) /\ last (pc_blocks c) = Some tip /\
    easy_transition c b = (Done tt, c') /\
    ph_parent_hash (pb_header b) <> pow_hash easy_crypto (pb_header tip) /\
    ph_number (pb_header b) = ph_number (pb_header tip) /\
    pc_blocks c' = pc_blocks c ++ [b] /\ ~ consecutive (pc_blocks c').
Proof.
  exists easy_c2, easy_b2', (easy_step easy_c2 easy_b2'), easy_b2.
  assert (Hc : pc_blocks easy_c2 = [easy_genesis; easy_b1; easy_b2]) by (vm_compute; reflexivity).
  assert (Hc' : pc_blocks (easy_step easy_c2 easy_b2') = [easy_genesis; easy_b1; easy_b2; easy_b2'])
    by (vm_compute; reflexivity).
  rewrite Hc, Hc'. split; [apply C64_nonvacuous|]. split; [reflexivity|]. split.
  { rewrite transition_fast; [|easy_worked|constructor].
    unfold easy_step. apply injective_projections; vm_compute; reflexivity. }
  split; [|split; [vm_compute; reflexivity|split; [reflexivity|]]].
  - intros H%bytes_eqb_eq. vm_compute in H. discriminate.
  - intros H. specialize (H 2%nat easy_b2 easy_b2' eq_refl eq_refl). vm_compute in H. discriminate.
Qed.

(** The first London block may have any gas limit, whatever that of its parent. *)
Definition berlin_tip (number : N) : pow_block unit :=
  PowBlock (PowHeader (zeros 32) easy_empty 0 (zeros 32) [] [] [] 131072 number 5000 0 1000 []
              (zeros 32) (zeros 8) None) [] [].
Definition london_chain : pow_chain unit :=
  PowChain [berlin_tip 12964998; berlin_tip 12964999] empty_state 1.
Definition late_difficulty (f : pow_fork) (number : N) : N :=
  match calculate_block_difficulty (pf_rule f) number 1010 1000 131072 false with Done d => d | _ => 0 end.
Definition late_header (f : pow_fork) (number limit : N) (fee : option N) (ommers : list pow_header)
  : pow_header :=
  PowHeader (pow_hash easy_crypto (pb_header (berlin_tip (number - 1)))) (ommers_hash easy_crypto ommers)
    0 (zeros 32) [] [] [] (late_difficulty f number) number limit 0 1010 [] (zeros 32) (zeros 8) fee.
Definition first_london (limit : N) (ommers : list pow_header) : pow_header :=
  late_header london 12965000 limit (Some 1000000000) ommers.
Theorem C63_london_limit_refuted limit :
  validate_header easy_crypto zero512 london london_chain (first_london limit []) = Done tt.
Proof.
  rewrite header_fast.
  2:{ apply zero_work; [reflexivity|reflexivity|reflexivity|vm_compute; discriminate]. }
  unfold fast_header. destruct limit; vm_compute; reflexivity.
Qed.

(** An ommer the Berlin rules accept makes the first London block raise an
    [AttributeError] (see [C64_london_refuted]). *)
Definition berlin_uncle : pow_header := late_header berlin 12964999 5000 None [].
Example C64_london_nonvacuous :
  validate_header easy_crypto zero512 berlin london_chain berlin_uncle = Done tt /\
  validate_header easy_crypto zero512 london london_chain (first_london 5000 [berlin_uncle]) = Done tt /\
  validate_ommers easy_crypto zero512 london [berlin_uncle] (first_london 5000 [berlin_uncle]) london_chain
    = Fail (FCrash AttributeError).
Proof.
  split; [|split].
  - rewrite header_fast; [vm_compute; reflexivity|easy_worked].
  - rewrite header_fast; [vm_compute; reflexivity|easy_worked].
  - apply (C64_london_refuted easy_crypto zero512 london london_chain _ berlin_uncle [] (berlin_tip 12964998));
      try reflexivity; try (vm_compute; split; congruence).
    + vm_compute. discriminate.
    + intros [|[|i]] b b' H H'; cbn [nth_error] in H, H'; try (by destruct i); try discriminate H';
        apply (inj Some) in H; apply (inj Some) in H'; subst b b'; vm_compute; reflexivity.
    + by left.
Qed.

(** A header that is acceptable, and one that is not *)
Example C63_nonvacuous :
  digests64 zero512 /\ consecutive (pc_blocks easy_chain) /\
  well_typed byzantium easy_chain (pb_header easy_b1) /\
  acceptable easy_crypto zero512 byzantium easy_chain (pb_header easy_b1) /\
  well_typed byzantium easy_chain (pb_header easy_b2) /\
  ~ acceptable easy_crypto zero512 byzantium easy_chain (pb_header easy_b2).
Proof.
  assert (Hc : consecutive (pc_blocks easy_chain)).
  { intros [|i] b b' H H'; cbn in H'; [discriminate|by destruct i]. }
  assert (Ht : forall h, ph_base_fee_per_gas h = None -> well_typed byzantium easy_chain h).
  { intros h _. split; [done|]. intros b [<-|[]] _. split; [done|vm_compute; reflexivity]. }
  split; [done|]. split; [exact Hc|]. split; [by apply Ht|]. split; [|split; [by apply Ht|]].
  - destruct (C63_header easy_crypto zero512 byzantium easy_chain (pb_header easy_b1)) as [[H _]|[_ H]];
      [done|vm_compute; reflexivity|exact Hc|done|by apply Ht|exact H|].
    rewrite header_fast in H by easy_worked. vm_compute in H. discriminate.
  - destruct (C63_header easy_crypto zero512 byzantium easy_chain (pb_header easy_b2)) as [[_ H]|[H _]];
      [done|vm_compute; reflexivity|exact Hc|done|by apply Ht| |exact H].
    rewrite header_fast in H by easy_worked. vm_compute in H. discriminate.
Qed.

(** Three of the listed accounts have ether. *)
Example C66_nonvacuous : 
  let s := toy_state [(nth 0 DAO_ACCOUNTS 0, Account 1 100 []); (nth 7 DAO_ACCOUNTS 0, Account 0 20 []);
    (nth 115 DAO_ACCOUNTS 0, Account 0 3 []); (0xaaaa, Account 0 5 [])] ∅ in
  total_balance s < 2 ^ 256 /\
  match apply_dao s with
  | Ok s' => map (fun a => balance (get_account s' a))
      [nth 0 DAO_ACCOUNTS 0; nth 7 DAO_ACCOUNTS 0; nth 115 DAO_ACCOUNTS 0; DAO_RECOVERY; 0xaaaa]
        = [0; 0; 0; 123; 5]
  | _ => False
  end.
Proof. split; vm_compute; reflexivity. Qed.

(** ** The parameters of the forks

    The value that the last fork up to number [i] set *)
Fixpoint set_by {A} (default : A) (table : list (nat * A)) (i : nat) : A :=
  match table with
  | [] => default
  | (j, x) :: table => if (i <? j)%nat then default else set_by x table i
  end.
(** EIP-2, EIP-100, EIP-649, EIP-1234, EIP-2384, EIP-3554, EIP-4345, EIP-5133 *)
Definition eip_rules : list (nat * difficulty_rule) :=
  [(1%nat, HomesteadRule); (5%nat, ByzantiumRule 3000000); (6%nat, ByzantiumRule 5000000);
   (8%nat, ByzantiumRule 9000000); (10%nat, ByzantiumRule 9700000); (11%nat, ByzantiumRule 10700000);
   (12%nat, ByzantiumRule 11400000)].
(** EIP-649, EIP-1234, in finney *)
Definition eip_rewards : list (nat * N) := [(5%nat, 3000); (6%nat, 2000)].
Theorem C62_schedule i f : nth_error pow_forks i = Some f ->
  pf_rule f = set_by FrontierRule eip_rules i /\
  pf_block_reward f = set_by 5000 eip_rewards i * 10 ^ 15 /\
  pf_base_fee f = (10 <=? i)%nat /\
  pf_dao_block f = (if (i =? 2)%nat then Some 1920000 else None) /\
  pf_london_block f = (if (i =? 10)%nat then Some 12965000 else None).
Proof.
  do 13 (destruct i as [|i]; [intros H; apply (inj Some) in H; subst f; vm_compute; repeat split|]).
  intros H. exfalso. revert H. cbn. by destruct i.
Qed.

(** The hypotheses of the characterisation hold of the example. *)
Example C65_proper : proper zero512 byzantium easy_c1 easy_b2.
Proof.
  assert (Ht : forall h, ph_base_fee_per_gas h = None -> well_typed byzantium easy_c1 h).
  { intros h _. split; [done|]. intros b Hb _. split; [done|].
    assert (Hc : pc_blocks easy_c1 = [easy_genesis; easy_b1]) by (vm_compute; reflexivity).
    rewrite Hc in Hb. destruct Hb as [<-|[<-|[]]]; vm_compute; reflexivity. }
  split; [done|]. split; [vm_compute; reflexivity|]. split.
  { assert (Hc : pc_blocks easy_c1 = [easy_genesis; easy_b1]) by (vm_compute; reflexivity).
    rewrite Hc. intros [|[|i]] b b' H H'; cbn [nth_error] in H, H'; try (by destruct i); try discriminate H'.
    apply (inj Some) in H. apply (inj Some) in H'. subst b b'. vm_compute. reflexivity. }
  split; [vm_compute; discriminate|]. split; [by apply Ht|].
  intros o [<-|[]]. by apply Ht.
Qed.

Definition PropPow_theorems :=
  (@C63_ethash_unique, @C63_proof_of_work, @C63_header, @C63_pow_hash, @C63_linked, @C63_tip_refuted,
   @C63_london_limit_refuted, @C64_ommers, @C64_london_refuted, @C64_history, @C65_rewards,
   @C65_no_error, @C65_block, @C65_accepted, @C65_rejected, @C62_schedule, @C66_dao, @C66_idempotent).
Print Assumptions PropPow_theorems.
