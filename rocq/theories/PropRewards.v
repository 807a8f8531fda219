(** * PropRewards: block rewards (C65) and the DAO fork (C66) *)
From Coq Require Import ZifyBool ZifyN ZifyNat.
From Verif Require Import Base PrecompileSpec State Rlp RlpProofs Vm StateSpec StateProofs PropTx PropBlocks
  Transactions NumericProofs Trie Blocks Requests Fork ForkProofs PropFees PropChain PropHeader Ethash PropEthash
  Pow PropDifficulty PropPow PropOmmers.
Ltac Zify.zify_post_hook ::= idtac.

(** ** Vocabulary *)

(** What a list of payments gives to an address, and in all *)
Definition paid_to (l : list (address * N)) (a : address) : N :=
  foldr (fun p n => if fst p =? a then snd p + n else n) 0 l.
Definition paid (l : list (address * N)) : N := foldr (fun p n => snd p + n) 0 l.

(** [s'] is [s] with these amounts added to the balances. *)
Definition credited (s s' : state) (l : list (address * N)) : Prop :=
  forall a, get_account s' a =
    Account (nonce (get_account s a)) (balance (get_account s a) + paid_to l a) (code (get_account s a)).

(** The payments for a block: the reward and 1/32 of it per ommer to the
    miner, and for each ommer 1/8 of the reward less per block of age. *)
Definition payments (reward number : N) (coinbase : address) (ommers : list pow_header)
  : list (address * N) :=
  (coinbase, reward + lenN ommers * (reward / 32)) ::
  map (fun o => (ph_coinbase o, (8 - (number - ph_number o)) * reward / 8)) ommers.

(** ** Accounts *)
Lemma get_set s a b v : get_account (set_account s a (Some v)) b
  = if b =? a then v else get_account s b.
Proof.
  unfold get_account, get_account_optional, set_account, set_main, account_trie_set. simpl.
  destruct (N.eqb_spec b a) as [->|H].
  - by rewrite lookup_insert.
  - by rewrite lookup_insert_ne by congruence.
Qed.
Lemma storage_set s a v : storage_tries (set_account s a v) = storage_tries s.
Proof. done. Qed.

Lemma Ok_inj {A} (x y : A) : Ok x = Ok y -> x = y.
Proof. congruence. Qed.
Lemma create_ether_inv s a n s' : create_ether s a n = Ok s' ->
  balance (get_account s a) + n < 2 ^ 256 /\
  credited s s' [(a, n)] /\ total_balance s' = total_balance s + n /\
  storage_tries s' = storage_tries s.
Proof.
  unfold create_ether, modify_account, increase_recipient_balance. change U256_CEIL with (2 ^ 256).
  destruct (N.ltb_spec (balance (get_account s a) + n) (2 ^ 256)) as [H|H]; [|done].
  intros E. apply Ok_inj in E. subst s'. split; [done|]. split; [|split; [|done]].
  - intros b. rewrite get_set. cbn [paid_to foldr fst snd]. rewrite (N.eqb_sym a b).
    destruct (N.eqb_spec b a) as [->|]; [by rewrite N.add_0_r|]. rewrite N.add_0_r.
    by destruct (get_account s b).
  - pose proof (total_set_account s a (Some (Account (nonce (get_account s a))
      (balance (get_account s a) + n) (code (get_account s a))))) as E. cbn in E. lia.
Qed.
Lemma create_ether_ok s a n : total_balance s + n < 2 ^ 256 -> exists s', create_ether s a n = Ok s'.
Proof.
  intros H. pose proof (balance_le_total s a).
  unfold create_ether, modify_account, increase_recipient_balance. change U256_CEIL with (2 ^ 256).
  rewrite (proj2 (N.ltb_lt _ _)) by lia. eauto.
Qed.
Lemma credited_trans s s1 s2 l m : credited s s1 l -> credited s1 s2 m -> credited s s2 (l ++ m).
Proof.
  intros H1 H2 a. rewrite H2, H1. cbn [nonce balance code]. f_equal.
  assert (paid_to (l ++ m) a = paid_to l a + paid_to m a) as ->; [|lia].
  clear H1 H2. induction l as [|[x n] l IH]; [done|]. unfold paid_to in *. cbn [app foldr fst snd].
  destruct (x =? a); rewrite IH; lia.
Qed.

(** ** C65 *)
Lemma u256_inv x y : u256 x = Done y -> x = y /\ x < 2 ^ 256.
Proof.
  unfold u256, to_u256. change U256_CEIL with (2 ^ 256). destruct (N.ltb_spec x (2 ^ 256)); [|done].
  cbn. intros E. split; [congruence|done].
Qed.
Lemma u256_ok x : x < 2 ^ 256 -> u256 x = Done x.
Proof.
  intros H. unfold u256, to_u256. change U256_CEIL with (2 ^ 256). by rewrite (proj2 (N.ltb_lt _ _)).
Qed.
Lemma usub_inv a b c : usub a b = Done c -> b <= a /\ c = a - b.
Proof. unfold usub. destruct (N.ltb_spec a b); [done|]. intros E. split; [done|congruence]. Qed.

Lemma pay_ommers_inv R n ommers : forall s u s', pay_ommers R n ommers s = (Done u, s') ->
  credited s s' (map (fun o => (ph_coinbase o, (8 - (n - ph_number o)) * R / 8)) ommers) /\
  total_balance s' = total_balance s
    + paid (map (fun o => (ph_coinbase o, (8 - (n - ph_number o)) * R / 8)) ommers) /\
  storage_tries s' = storage_tries s /\
  (forall o, In o ommers -> ph_number o <= n <= ph_number o + 8).
Proof.
  induction ommers as [|o ommers IH]; intros s u s' H; cbn [pay_ommers] in H.
  - apply sret_inv in H as [_ ->]. split; [|split; [cbn; lia|done]].
    intros a. cbn. rewrite N.add_0_r. by destruct (get_account s a).
  - apply sbind_inv in H as (age & s1 & H1 & H). apply lift_inv in H1 as [H1 ->].
    apply usub_inv in H1 as [L1 ->].
    apply sbind_inv in H as (age & s1 & H2 & H). apply lift_inv in H2 as [H2 ->].
    apply u256_inv in H2 as [<- _].
    apply sbind_inv in H as (share & s1 & H3 & H). apply lift_inv in H3 as [H3 ->].
    apply usub_inv in H3 as [L3 ->].
    apply sbind_inv in H as (prod & s1 & H4 & H). apply lift_inv in H4 as [H4 ->].
    apply u256_inv in H4 as [<- _]. cbv zeta in H.
    apply sbind_inv in H as (v & s1 & H5 & H). apply modifies_inv in H5.
    apply create_ether_inv in H5 as (_ & C1 & C2 & C3).
    apply IH in H as (D1 & D2 & D3 & D4). split; [|split; [|split]].
    + apply (credited_trans _ _ _ _ _ C1 D1).
    + rewrite D2, C2. unfold paid. cbn [map foldr snd]. lia.
    + congruence.
    + intros o' [<-|Ho]; [lia|by apply D4].
Qed.

(** Who gets what; nothing else changes; the supply grows by the sum. *)
Theorem C65_rewards reward number coinbase ommers s u s' :
  pay_rewards reward number coinbase ommers s = (Done u, s') ->
  credited s s' (payments reward number coinbase ommers) /\
  total_balance s' = total_balance s + paid (payments reward number coinbase ommers) /\
  storage_tries s' = storage_tries s /\
  forall o, In o ommers -> ph_number o <= number <= ph_number o + 8.
Proof.
  unfold pay_rewards, payments. intros H.
  apply sbind_inv in H as (count & s1 & H1 & H). apply lift_inv in H1 as [H1 ->].
  apply u256_inv in H1 as [<- _].
  apply sbind_inv in H as (extra & s1 & H1 & H). apply lift_inv in H1 as [H1 ->].
  apply u256_inv in H1 as [<- _].
  apply sbind_inv in H as (miner & s1 & H1 & H). apply lift_inv in H1 as [H1 ->].
  apply u256_inv in H1 as [<- _].
  apply sbind_inv in H as (v & s1 & H1 & H). apply modifies_inv in H1.
  apply create_ether_inv in H1 as (_ & C1 & C2 & C3).
  apply pay_ommers_inv in H as (D1 & D2 & D3 & D4). split_and!.
  - apply (credited_trans _ _ _ _ _ C1 D1).
  - rewrite D2, C2. unfold paid. cbn [map foldr snd]. lia.
  - congruence.
  - done.
Qed.

(** For ommers of age at most 8, and unless the supply exceeds 2^256, the
    rewards are paid. *)
Lemma pay_ommers_ok R n ommers : 8 * R < 2 ^ 256 -> forall s,
  (forall o, In o ommers -> ph_number o <= n <= ph_number o + 8) ->
  total_balance s + paid (map (fun o => (ph_coinbase o, (8 - (n - ph_number o)) * R / 8)) ommers)
    < 2 ^ 256 ->
  exists s', pay_ommers R n ommers s = (Done tt, s').
Proof.
  intros HR. induction ommers as [|o ommers IH]; intros s Ho Ht; cbn [pay_ommers].
  { by exists s. }
  destruct (Ho o) as [O1 O2]; [by left|].
  unfold paid in Ht. cbn [map foldr snd] in Ht. fold (paid (map (fun o => (ph_coinbase o, (8 - (n - ph_number o)) * R / 8)) ommers)) in Ht.
  unfold sbind at 1, lift at 1. rewrite usub_Z by done.
  unfold sbind at 1, lift at 1. rewrite u256_ok.
  2:{ apply (N.le_lt_trans _ 8); [lia|]. vm_compute. reflexivity. }
  unfold sbind at 1, lift at 1. rewrite usub_Z by lia.
  unfold sbind at 1, lift at 1. rewrite u256_ok.
  2:{ eapply N.le_lt_trans; [|exact HR]. apply N.mul_le_mono_r. lia. }
  cbv zeta. unfold sbind at 1, modifies at 1.
  destruct (create_ether_ok s (ph_coinbase o) ((8 - (n - ph_number o)) * R / 8)) as [s1 E].
  { revert Ht. generalize ((8 - (n - ph_number o)) * R / 8). intros. lia. }
  rewrite E. apply create_ether_inv in E as (_ & _ & E & _). apply IH.
  - intros o' Ho'. apply Ho. by right.
  - rewrite E. revert Ht. generalize ((8 - (n - ph_number o)) * R / 8). intros. lia.
Qed.
Lemma exist_eq {A} (x : A) : exists y, x = y.
Proof. by exists x. Qed.
Theorem C65_no_error reward number coinbase ommers s :
  8 * reward < 2 ^ 256 -> (forall o, In o ommers -> ph_number o <= number <= ph_number o + 8) ->
  total_balance s + paid (payments reward number coinbase ommers) < 2 ^ 256 ->
  lenN ommers < 2 ^ 256 ->
  exists s', pay_rewards reward number coinbase ommers s = (Done tt, s').
Proof.
  intros HR Ho Ht Hl. unfold pay_rewards, payments in *.
  unfold paid in Ht. cbn [foldr snd] in Ht.
  fold (paid (map (fun o => (ph_coinbase o, (8 - (number - ph_number o)) * reward / 8)) ommers)) in Ht.
  revert Ht. destruct (exist_eq (lenN ommers * (reward / 32))) as [extra Hextra]. rewrite Hextra. intros Ht.
  unfold sbind at 1, lift at 1. rewrite u256_ok by done.
  unfold sbind at 1, lift at 1. rewrite Hextra, u256_ok by (clear -Ht; lia).
  unfold sbind at 1, lift at 1. rewrite u256_ok by (clear -Ht; lia).
  unfold sbind at 1, modifies at 1.
  destruct (create_ether_ok s coinbase (reward + extra)) as [s1 E]; [clear -Ht; lia|].
  rewrite E. apply create_ether_inv in E as (_ & _ & E & _). apply pay_ommers_ok; [done..|].
  rewrite E. clear -Ht. lia.
Qed.

(** An accepted block: after its transactions, exactly the payments are made.
    They are the reward and at most 29/16 of it (up to rounding) for ommers,
    each of which is worth at least a quarter of the reward. *)
Section accepted.
  Context (cr : crypto) (k512 : bytes -> bytes) (f : pow_fork) {tx : Type}.
  Context (execute : pow_chain tx -> pow_header -> list tx -> sm pow_output).

  Theorem C65_block c (b : pow_block tx) c' :
    state_transition cr k512 f execute c b = (Done tt, c') ->
    exists output s, let h := pb_header b in let R := pf_block_reward f in
      execute c h (pb_transactions b) (pc_state c) = (Done output, s) /\
      credited s (pc_state c') (payments R (ph_number h) (ph_coinbase h) (pb_ommers b)) /\
      total_balance (pc_state c') =
        total_balance s + paid (payments R (ph_number h) (ph_coinbase h) (pb_ommers b)) /\
      storage_tries (pc_state c') = storage_tries s /\
      R <= paid (payments R (ph_number h) (ph_coinbase h) (pb_ommers b))
        <= R + lenN (pb_ommers b) * (R / 32 + 7 * R / 8) /\ lenN (pb_ommers b) <= 2 /\
      Forall (fun o => 2 * R / 8 <= (8 - (ph_number h - ph_number o)) * R / 8 <= 7 * R / 8) (pb_ommers b).
  Proof using.
    intros H. apply transition_done in H as (_ & Ho & (output & Ha & _) & _ & _).
    apply accepted_ommers in Ho as (_ & Hl & _ & Hn & Ha6). unfold apply_body in Ha.
    apply sbind_inv in Ha as (output' & s & He & Ha).
    apply sbind_inv in Ha as ([] & s1 & Hp & Ha). apply sret_inv in Ha as [-> Hs].
    subst s1. apply C65_rewards in Hp as (P1 & P2 & P3 & P4).
    exists output, s. cbv zeta. split_and!; try done.
    - unfold payments, paid. cbn [foldr snd]. lia.
    - unfold payments, paid. cbn [foldr snd].
      assert (Hsum : foldr (fun p n => snd p + n) 0
        (map (fun o => (ph_coinbase o, (8 - (ph_number (pb_header b) - ph_number o)) * pf_block_reward f / 8))
           (pb_ommers b)) <= lenN (pb_ommers b) * (7 * pf_block_reward f / 8)).
      { clear -Hn. induction (pb_ommers b) as [|o l IH]; [done|]. cbn [map foldr snd].
        assert ((8 - (ph_number (pb_header b) - ph_number o)) * pf_block_reward f / 8
          <= 7 * pf_block_reward f / 8) as H1.
        { apply N.div_le_mono; [done|]. apply N.mul_le_mono_r. destruct (Hn o); [by left|]. lia. }
        specialize (IH (fun o Ho => Hn o (or_intror Ho))).
        unfold lenN in *. cbn [length]. revert H1 IH.
        generalize (7 * pf_block_reward f / 8).
        generalize ((8 - (ph_number (pb_header b) - ph_number o)) * pf_block_reward f / 8).
        intros. lia. }
      revert Hsum. generalize (7 * pf_block_reward f / 8), (pf_block_reward f / 32).
      intros x y Hx. rewrite N.mul_add_distr_l. lia.
    - apply Forall_forall. intros o Hin%elem_of_list_In. destruct (Hn o Hin) as [A1 _].
      destruct (Ha6 o Hin) as (_ & _ & _ & A2 & _).
      split; (apply N.div_le_mono; [done|]; apply N.mul_le_mono_r; lia).
  Qed.

  (** The conditions under which acceptance is characterised *)
  Definition proper (c : pow_chain tx) (b : pow_block tx) : Prop :=
    digests64 k512 /\ ph_number (pb_header b) < 1962270000 /\
    consecutive (pc_blocks c) /\ pc_blocks c <> [] /\
    well_typed f c (pb_header b) /\ forall o, In o (pb_ommers b) -> well_typed f c o.

  (** A block is accepted exactly if its header and ommers are, its
      transactions and the rewards can be processed, and the header commits to
      what comes out. The chain then has the block appended and keeps the last
      255. *)
  Theorem C65_accepted c (b : pow_block tx) c' : proper c b ->
    state_transition cr k512 f execute c b = (Done tt, c') <->
    acceptable cr k512 f c (pb_header b) /\
    valid_ommers cr k512 f c (pb_header b) (pb_ommers b) /\
    (exists output s, let h := pb_header b in
      execute c h (pb_transactions b) (pc_state c) = (Done output, s) /\
      pay_rewards (pf_block_reward f) (ph_number h) (ph_coinbase h) (pb_ommers b) s
        = (Done tt, pc_state c') /\
      h = PowHeader (ph_parent_hash h) (ph_ommers_hash h) (ph_coinbase h) (ph_state_root h)
        (po_transactions_root output) (po_receipt_root output) (po_bloom output) (ph_difficulty h)
        (ph_number h) (ph_gas_limit h) (po_gas_used output) (ph_timestamp h) (ph_extra_data h)
        (ph_mix_digest h) (ph_nonce h) (ph_base_fee_per_gas h) /\
      state_root cr (pc_state c') = Some (ph_state_root h)) /\
    pc_chain_id c' = pc_chain_id c /\ pc_blocks c' = lastN 255 (pc_blocks c ++ [b]).
  Proof using.
    intros (P1 & P2 & P3 & P4 & P5 & P6). split.
    - intros H. apply transition_done in H as (A1 & A2 & (output & Ha & B1 & B2 & B3 & B4 & B5) & A4 & A5).
      destruct (C63_header cr k512 f c (pb_header b)) as [[H1 _]|[_ H1]]; [done..| |congruence].
      destruct (C64_ommers cr k512 f c (pb_header b) (pb_ommers b)) as [[H2 _]|[_ H2]];
        [done|lia|done..| |congruence].
      unfold apply_body in Ha. apply sbind_inv in Ha as (output' & s & He & Ha).
      apply sbind_inv in Ha as ([] & s1 & Hp & Ha). apply sret_inv in Ha as [-> Hs]. subst s1.
      split_and!; try done. exists output, s. cbv zeta. split_and!; try done.
      rewrite B1, B2, B4, B5. by destruct (pb_header b).
    - intros (H1 & H2 & (output & s & He & Hp & Hh & Hr) & H3 & H4). unfold state_transition.
      destruct (C63_header cr k512 f c (pb_header b)) as [[_ ->]|[H _]]; [done..| |done].
      destruct (C64_ommers cr k512 f c (pb_header b) (pb_ommers b)) as [[_ ->]|[H _]];
        [done|lia|done..| |done].
      cbn [obind]. unfold apply_body, sbind at 1. rewrite He. unfold sbind. rewrite Hp. cbn [sret].
      rewrite Hr. cbn [of_option obind].
      assert (E1 := f_equal ph_gas_used Hh). assert (E2 := f_equal ph_transactions_root Hh).
      assert (E3 := f_equal ph_receipt_root Hh). assert (E4 := f_equal ph_bloom Hh).
      cbn [ph_gas_used ph_transactions_root ph_receipt_root ph_bloom] in E1, E2, E3, E4.
      rewrite <- E1, <- E2, <- E3, <- E4, N.eqb_refl.
      rewrite !(proj2 (bytes_eqb_eq _ _)) by done. cbn [check obind]. f_equal.
      destruct c' as [bl' st' id']. cbn [pc_blocks pc_state pc_chain_id] in *. subst. f_equal.
      destruct (N.ltb_spec 255 (lenN (pc_blocks c ++ [b]))); [done|]. symmetry. by apply lastN_short.
  Qed.
  (** A block whose header or ommers are wrong is invalid and changes nothing;
      no failure changes the blocks. *)
  Theorem C65_rejected c (b : pow_block tx) : proper c b ->
    (~ (acceptable cr k512 f c (pb_header b) /\
        valid_ommers cr k512 f c (pb_header b) (pb_ommers b)) ->
     state_transition cr k512 f execute c b = (Fail FInvalidBlock, c)) /\
    forall e c', state_transition cr k512 f execute c b = (Fail e, c') ->
      pc_blocks c' = pc_blocks c /\ pc_chain_id c' = pc_chain_id c.
  Proof using.
    intros (P1 & P2 & P3 & P4 & P5 & P6). split; [|apply transition_fail].
    intros H. unfold state_transition.
    destruct (C63_header cr k512 f c (pb_header b)) as [[H1 ->]|[_ ->]]; [done..| |done].
    destruct (C64_ommers cr k512 f c (pb_header b) (pb_ommers b)) as [[H2 _]|[_ ->]];
      [done|lia|done..|tauto|done].
  Qed.
End accepted.

(** ** C66: the DAO fork *)

(** The balances of [l] together *)
Definition balances (s : state) (l : list address) : N :=
  foldr (fun a n => balance (get_account s a) + n) 0 l.

(** [s'] is [s] with the balances of [l] moved to [r]. *)
Definition collected (s s' : state) (l : list address) (r : address) : Prop :=
  (forall a, nonce (get_account s' a) = nonce (get_account s a) /\
             code (get_account s' a) = code (get_account s a)) /\
  (forall a, In a l -> balance (get_account s' a) = 0) /\
  balance (get_account s' r) = balance (get_account s r) + balances s l /\
  (forall a, ~ In a l -> a <> r -> get_account s' a = get_account s a) /\
  storage_tries s' = storage_tries s /\ total_balance s' = total_balance s.

Lemma move_all s a r s' : a <> r -> move_ether_pow s a r (balance (get_account s a)) = Ok s' ->
  collected s s' [a] r.
Proof.
  intros Har. unfold move_ether_pow, modify_account, reduce_sender_balance.
  rewrite N.ltb_irrefl. unfold increase_recipient_balance. change U256_CEIL with (2 ^ 256).
  rewrite N.sub_diag. set (acc := Account _ 0 _).
  destruct (N.ltb_spec (balance (get_account (set_account s a (Some acc)) r) + balance (get_account s a)) (2 ^ 256))
    as [Hlt|]; [|done].
  intros E. apply Ok_inj in E. subst s'.
  pose proof (total_set_account s a (Some acc)) as T1. cbn [bal_opt] in T1.
  match goal with |- collected _ (set_account ?s1 _ (Some ?v)) _ _ =>
    pose proof (total_set_account s1 r (Some v)) as T2 end.
  cbn [bal_opt balance] in T2.
  assert (Hr : get_account (set_account s a (Some acc)) r = get_account s r).
  { rewrite get_set. by destruct (N.eqb_spec r a); [congruence|]. }
  rewrite Hr in *. unfold collected. split_and!.
  - intros b. rewrite !get_set. destruct (N.eqb_spec b r) as [->|]; [done|].
    by destruct (N.eqb_spec b a) as [->|].
  - intros b [<-|[]]. rewrite !get_set. destruct (N.eqb_spec a r); [done|]. by rewrite N.eqb_refl.
  - rewrite get_set, N.eqb_refl. cbn [balance]. unfold balances. cbn [foldr]. lia.
  - intros b Hb Hb'. rewrite !get_set. destruct (N.eqb_spec b r); [done|].
    destruct (N.eqb_spec b a) as [->|]; [|done]. destruct Hb. by left.
  - done.
  - change (balance acc) with 0 in T1. lia.
Qed.
Lemma move_all_ok s a r : a <> r -> total_balance s < 2 ^ 256 ->
  exists s', move_ether_pow s a r (balance (get_account s a)) = Ok s'.
Proof.
  intros Har Ht. unfold move_ether_pow, modify_account, reduce_sender_balance.
  rewrite N.ltb_irrefl. unfold increase_recipient_balance. change U256_CEIL with (2 ^ 256).
  set (acc := Account _ _ _).
  assert (Hr : get_account (set_account s a (Some acc)) r = get_account s r).
  { rewrite get_set. by destruct (N.eqb_spec r a); [congruence|]. }
  rewrite Hr. pose proof (balance_two_le_total s a r Har).
  rewrite (proj2 (N.ltb_lt _ _)) by lia. eauto.
Qed.

Lemma apply_dao_loop_spec l : NoDup l -> DAO_RECOVERY ∉ l -> forall s s',
  apply_dao_loop s l = Ok s' -> collected s s' l DAO_RECOVERY.
Proof.
  induction 1 as [|a l Ha Hl IH]; intros Hr s s' H; cbn [apply_dao_loop] in H.
  - apply Ok_inj in H. subst s'. unfold collected. cbn [balances foldr]. split_and!; try done. lia.
  - destruct (move_ether_pow s a DAO_RECOVERY (balance (get_account s a))) as [s1|] eqn:E; [|done].
    assert (a <> DAO_RECOVERY) as Har by (intros ->; apply Hr; constructor).
    apply move_all in E as (A1 & A2 & A3 & A4 & A5 & A6); [|done].
    apply IH in H as (B1 & B2 & B3 & B4 & B5 & B6); [|intros G; apply Hr; by constructor].
    assert (Hal : ~ In a l) by (by rewrite <- elem_of_list_In).
    assert (Hb : balances s1 l = balances s l).
    { assert (Hrl : ~ In DAO_RECOVERY l).
      { rewrite <- elem_of_list_In. intros G. apply Hr. by constructor. }
      clear -A4 Hal Hrl. unfold balances. induction l as [|b l IH]; [done|]. cbn [foldr].
      rewrite IH; [|intros G; apply Hal; by right|intros G; apply Hrl; by right].
      rewrite A4; [done| |].
      - intros [->|[]]. apply Hal. by left.
      - intros ->. apply Hrl. by left. }
    unfold collected. split_and!.
    + intros b. destruct (B1 b) as [-> ->]. apply A1.
    + intros b [<-|Hb']; [|by apply B2]. rewrite B4 by done. apply A2. by left.
    + rewrite B3, A3, Hb. unfold balances. cbn [foldr]. lia.
    + intros b Hb1 Hb2. rewrite B4, A4; try done.
      * intros [->|[]]. apply Hb1. by left.
      * intros G. apply Hb1. by right.
    + congruence.
    + congruence.
Qed.
Lemma apply_dao_loop_ok l : DAO_RECOVERY ∉ l -> forall s, total_balance s < 2 ^ 256 ->
  exists s', apply_dao_loop s l = Ok s'.
Proof.
  induction l as [|a l IH]; intros Hr s Ht; cbn [apply_dao_loop]; [by exists s|].
  assert (a <> DAO_RECOVERY) as Har by (intros ->; apply Hr; constructor).
  destruct (move_all_ok s a DAO_RECOVERY Har Ht) as [s1 E]. rewrite E.
  apply move_all in E as (_ & _ & _ & _ & _ & E); [|done]. apply IH; [|lia].
  intros G. apply Hr. by constructor.
Qed.
Lemma dao_accounts : NoDup DAO_ACCOUNTS /\ DAO_RECOVERY ∉ DAO_ACCOUNTS.
Proof.
  split; [apply (bool_decide_unpack (NoDup DAO_ACCOUNTS))|
          apply (bool_decide_unpack (DAO_RECOVERY ∉ DAO_ACCOUNTS))]; vm_compute; exact I.
Qed.

(** The DAO fork succeeds, empties the listed accounts into the recovery
    contract, and changes nothing else. *)
Theorem C66_dao s : total_balance s < 2 ^ 256 ->
  exists s', apply_dao s = Ok s' /\ collected s s' DAO_ACCOUNTS DAO_RECOVERY.
Proof.
  intros H. destruct dao_accounts as [H1 H2].
  destruct (apply_dao_loop_ok DAO_ACCOUNTS H2 s H) as [s' E]. exists s'. split; [exact E|].
  by apply apply_dao_loop_spec.
Qed.
(** A second application changes no balance. *)
Theorem C66_idempotent s s1 s2 : apply_dao s = Ok s1 -> apply_dao s1 = Ok s2 ->
  forall a, get_account s2 a = get_account s1 a.
Proof.
  intros E1 E2. destruct dao_accounts as [H1 H2].
  apply apply_dao_loop_spec in E1 as (_ & A2 & _); [|done..].
  apply apply_dao_loop_spec in E2 as (B1 & B2 & B3 & B4 & _); [|done..].
  intros a. destruct (decide (a = DAO_RECOVERY)) as [->|Har].
  - destruct (B1 DAO_RECOVERY) as [G1 G2].
    assert (balances s1 DAO_ACCOUNTS = 0) as E.
    { revert A2. generalize DAO_ACCOUNTS as l. clear. unfold balances.
      induction l as [|b l IH]; intros H; [done|]. cbn [foldr].
      rewrite H, IH; [done|intros; apply H; by right|by left]. }
    rewrite E, N.add_0_r in B3. destruct (get_account s1 DAO_RECOVERY), (get_account s2 DAO_RECOVERY).
    cbn in *. congruence.
  - destruct (in_dec N.eq_dec a DAO_ACCOUNTS) as [Hin|Hin]; [|by apply B4].
    specialize (A2 a Hin). specialize (B2 a Hin). destruct (B1 a) as [G1 G2].
    destruct (get_account s1 a), (get_account s2 a). cbn in *. congruence.
Qed.
