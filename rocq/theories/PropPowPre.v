(** * PropPowPre: C84, the precompiled contracts of the proof-of-work forks.

    What each contract costs and answers, fork by fork, and what the caller
    gets. *)
From Verif Require Import PrecompileSpec.
From Verif Require Import Base State Rlp Bloom Transactions Trie Blocks Requests Fork Ethash Pow PowTx.
From Verif Require Import Vm Instructions Precompiles Interpreter PowVm StateSpec
  StateProofs NumericProofs ArithProofs EvmStep InstrSpec InstrProofs EvmExamples
  PropFrames PrecompileSpec PropPrecompiles PropBlake2 PropPowTx PropPowLife.
From Coq Require Import ZifyBool ZifyN ZifyNat.
Ltac Zify.zify_post_hook ::= idtac.

(** ** Reference *)

(** Contract [a] of fork [n], called with [d], charges [price] and gives [r];
    nothing else in the frame and nothing in the world changes. *)
Definition pow_answers (cr : crypto) (n : pow_name) (a : address) (d : bytes) (price : N)
    (r : answer) : Prop :=
  exists op, pow_precompile cr n a = Some op /\
  forall e w, m_data (e_message e) = d ->
    op e w =
      if e_gas_left e <? price then Exc (EHalt OutOfGasError) e w
      else let e' := set_gas_left (e_gas_left e - price) e in
           match r with
           | Output out => Ret tt (set_output out e') w
           | Silent => Ret tt e' w
           | Fails x => Exc (EHalt x) e' w
           end.
(** It fails before charging anything. *)
Definition pow_rejects (cr : crypto) (n : pow_name) (a : address) (d : bytes) (x : halt) : Prop :=
  exists op, pow_precompile cr n a = Some op /\
  forall e w, m_data (e_message e) = d -> op e w = Exc (EHalt x) e w.
(** With [price] gas or more it raises an exception nobody handles. *)
Definition pow_crashes (cr : crypto) (n : pow_name) (a : address) (d : bytes) (price : N) : Prop :=
  exists op, pow_precompile cr n a = Some op /\
  forall e w, m_data (e_message e) = d ->
    if e_gas_left e <? price then op e w = Exc (EHalt OutOfGasError) e w
    else exists e', op e w = Exc (ECrash OverflowError) e' w.

(** Modular exponentiation: EIP-198 from Byzantium, EIP-2565 from Berlin. *)
Definition pow_modexp_price (n : pow_name) (bl el ml head : N) : N :=
  let x := N.max bl ml in
  let steps := N.max 1 ((if el <=? 32 then 0 else 8 * (el - 32)) + N.log2 head) in
  if since Berlin n then N.max 200 (((x + 7) / 8) ^ 2 * steps / 3)
  else
    let complexity :=
      if x <=? 64 then x ^ 2
      else if x <=? 1024 then x ^ 2 / 4 + 96 * x - 3072
      else x ^ 2 / 16 + 480 * x - 199680 in
    complexity * steps / 20.

(** ** Proofs *)
Lemma pow_answers_intro cr n a d price r op body :
  pow_precompile cr n a = Some op ->
  (forall e w, m_data (e_message e) = d -> op e w = bind (charge_gas price) (fun _ => body) e w) ->
  (forall e w, body e w = match r with
                          | Output out => Ret tt (set_output out e) w
                          | Silent => Ret tt e w
                          | Fails x => Exc (EHalt x) e w
                          end) ->
  pow_answers cr n a d price r.
Proof.
  intros Ho Hop Hb. exists op. split; [done|]. intros e w Hd. rewrite Hop by done.
  unfold bind, charge_gas. destruct (_ <? _); [done|]. apply Hb.
Qed.
Lemma answers_same cr n a d price r : pow_precompile cr n a = pre_compiled_contracts cr Osaka a ->
  answers cr a d price r -> pow_answers cr n a d price r.
Proof. intros E (op & H & H'). exists op. by rewrite E. Qed.
Ltac in_fork H := cbv beta iota delta [pow_precompile]; change PowVm.since with since; rewrite H; reflexivity.
Ltac pow_contract H f :=
  eapply pow_answers_intro;
    [in_fork H | intros e w Hd; unfold f; rewrite data_bind, Hd | ].

(** ** C84 *)

(** The four contracts of Frontier, in every fork. *)
Theorem C84_ecrecover cr n d : (forall b, lenN (keccak256 cr b) = 32) ->
  (forall key, recovers cr d key ->
     pow_answers cr n 1 d 3000 (Output (zeros 12 ++ dropN 12 (keccak256 cr key)))) /\
  ((forall key, ~ recovers cr d key) -> pow_answers cr n 1 d 3000 Silent).
Proof.
  intros Hk. destruct (C58_ecrecover cr d Hk) as [H1 H2].
  split; intros; (apply answers_same; [done|auto]).
Qed.
Theorem C84_sha256 cr n d :
  pow_answers cr n 2 d (60 + 12 * words (lenN d)) (Output (sha256_digest cr d)).
Proof. apply answers_same; [done|]. apply C58_sha256. Qed.
Theorem C84_ripemd160 cr n d : (forall b, lenN (ripemd160_digest cr b) = 20) ->
  pow_answers cr n 3 d (600 + 120 * words (lenN d)) (Output (zeros 12 ++ ripemd160_digest cr d)).
Proof. intros H. apply answers_same; [done|]. by apply C58_ripemd160. Qed.
Theorem C84_identity cr n d : pow_answers cr n 4 d (15 + 3 * words (lenN d)) (Output d).
Proof. apply answers_same; [done|]. apply C58_identity. Qed.

Lemma pow_modexp_price_eq n bl el ml h :
  pow_modexp_gas_cost n bl ml el h = pow_modexp_price n bl el ml h.
Proof.
  unfold pow_modexp_gas_cost, pow_modexp_complexity, pow_modexp_iterations, pow_modexp_price.
  change PowVm.since with since. cbv zeta.
  assert (EL : bit_length h - 1 = N.log2 h).
  { unfold bit_length. destruct (decide (h = 0)) as [->|Hh]; [done|]. rewrite N.size_log2 by done. lia. }
  rewrite EL.
  assert (E1 : (if el <=? 32 then N.log2 h else 8 * (el - 32) + N.log2 h) =
    (if el <=? 32 then 0 else 8 * (el - 32)) + N.log2 h) by (destruct (el <=? 32); lia).
  assert (E2 : (if el <? 32 then N.log2 h else 8 * (el - 32) + N.log2 h) =
    (if el <=? 32 then 0 else 8 * (el - 32)) + N.log2 h).
  { destruct (N.ltb_spec el 32), (N.leb_spec el 32); lia. }
  rewrite E1, E2, (N.max_comm 1). destruct (since Berlin n); reflexivity.
Qed.
Lemma zeros_encode k : zeros k = encode (N.to_nat k) 0.
Proof.
  unfold zeros. generalize (N.to_nat k). intros j. induction j as [|j IH]; [done|].
  cbn [to_be_fixed]. change (0 / 256) with 0. rewrite <- IH.
  change [byte_of_N (0 mod 256)] with (repeat Byte.x00 1). rewrite <- repeat_app. f_equal. lia.
Qed.

(** Modular exponentiation.  There are no limits on the lengths; if the places
    of the operands exceed 2^256 the code raises an exception nobody handles
    (see C76), instead of running out of gas. *)
Theorem C84_modexp cr n d : since Byzantium n = true ->
  let bl := number d 0 32 in let el := number d 32 32 in let ml := number d 64 32 in
  let b := number d 96 bl in let x := number d (96 + bl) el in
  let m := number d (96 + bl + el) ml in
  let price := pow_modexp_price n bl el ml (number d (96 + bl) (N.min el 32)) in
  (96 + bl + el < 2 ^ 256 -> pow_answers cr n 5 d price
     (Output (encode (N.to_nat ml) (if m =? 0 then 0 else b ^ x mod m)))) /\
  (bl = 0 -> ml = 0 -> pow_answers cr n 5 d price (Output [])) /\
  (96 + bl < 2 ^ 256 -> 2 ^ 256 <= 96 + bl + el -> bl <> 0 \/ ml <> 0 ->
     pow_crashes cr n 5 d price) /\
  (2 ^ 256 <= 96 + bl -> pow_crashes cr n 5 d 0).
Proof.
  intros Hn bl el ml b x m price.
  assert (Hop : pow_precompile cr n 5 = Some (pow_modexp n)) by in_fork Hn.
  assert (Hrun : forall e w, m_data (e_message e) = d -> pow_modexp n e w =
    match to_u256 (96 + bl) with
    | Raise c => Exc (ECrash c) e w
    | Ok s =>
        if e_gas_left e <? pow_modexp_gas_cost n bl ml el (number d s (N.min 32 el))
        then Exc (EHalt OutOfGasError) e w
        else
          let e' := set_gas_left (e_gas_left e - pow_modexp_gas_cost n bl ml el (number d s (N.min 32 el))) e in
          if (bl =? 0) && (ml =? 0) then Ret tt (set_output [] e') w
          else match to_u256 (s + el) with
               | Raise c => Exc (ECrash c) e' w
               | Ok t =>
                   if number d t ml =? 0 then Ret tt (set_output (zeros ml) e') w
                   else Ret tt (set_output (encode (N.to_nat ml)
                          (pow_mod b (number d s el) (number d t ml))) e') w
               end
    end).
  { intros e w Hd. unfold pow_modexp. rewrite data_bind, Hd, !number_word. fold bl el ml.
    unfold bind, lift, charge_gas.
    destruct (to_u256 (96 + bl)) as [s|c]; cbv beta iota delta [ret raise]; [|done].
    rewrite number_read.
    destruct (_ <? _); [done|]. cbv beta iota zeta. destruct ((bl =? 0) && (ml =? 0)); [done|].
    destruct (to_u256 (s + el)) as [t|c]; cbv beta iota; [|done].
    rewrite !number_read. fold b. by destruct (_ =? 0). }
  assert (Hok : forall k, k < 2 ^ 256 -> to_u256 k = Ok k).
  { intros k Hk. unfold to_u256. change U256_CEIL with (2 ^ 256). by rewrite (proj2 (N.ltb_lt _ _) Hk). }
  assert (Hbad : forall k, 2 ^ 256 <= k -> to_u256 k = Raise OverflowError).
  { intros k Hk. unfold to_u256. change U256_CEIL with (2 ^ 256). by rewrite (proj2 (N.ltb_ge _ _) Hk). }
  assert (Hpr : pow_modexp_gas_cost n bl ml el (number d (96 + bl) (N.min 32 el)) = price).
  { rewrite pow_modexp_price_eq, (N.min_comm 32). reflexivity. }
  split; [|split; [|split]].
  - intros Hlt. exists (pow_modexp n). split; [done|]. intros e w Hd. rewrite Hrun by done.
    rewrite (Hok (96 + bl)) by lia. rewrite Hpr. destruct (_ <? _); [done|]. cbv zeta.
    destruct ((bl =? 0) && (ml =? 0)) eqn:E0; [replace ml with 0 by lia; done|].
    rewrite Hok by done. fold m x. destruct (m =? 0) eqn:E1.
    + by rewrite zeros_encode.
    + rewrite pow_mod_spec by (apply N.eqb_neq; exact E1). reflexivity.
  - intros Hb Hm. exists (pow_modexp n). split; [done|]. intros e w Hd. rewrite Hrun by done.
    rewrite (Hok (96 + bl)) by (rewrite Hb; reflexivity). rewrite Hpr. destruct (_ <? _); [done|]. cbv zeta.
    by rewrite Hb, Hm.
  - intros H1 H2 H3. exists (pow_modexp n). split; [done|]. intros e w Hd. rewrite Hrun by done.
    rewrite (Hok (96 + bl)) by done. rewrite Hpr. destruct (_ <? _); [done|]. cbv zeta.
    replace ((bl =? 0) && (ml =? 0)) with false by lia. rewrite Hbad by done. by eexists.
  - intros H. exists (pow_modexp n). split; [done|]. intros e w Hd.
    rewrite (proj2 (N.ltb_ge _ 0) (N.le_0_l _)). rewrite Hrun by done. rewrite Hbad by done. by eexists.
Qed.

(** alt_bn128: EIP-196 and 197 from Byzantium, cheaper from Istanbul
    (EIP-1108). *)
Theorem C84_bn128_add cr n d : since Byzantium n = true ->
  let price := if since Istanbul n then 150 else 500 in
  (forall p q, bn_point d 0 p -> bn_point d 64 q ->
     pow_answers cr n 6 d price (Output (encode1 32 (bn128_add cr p q)))) /\
  ((forall p q, ~ (bn_point d 0 p /\ bn_point d 64 q)) ->
     pow_answers cr n 6 d price (Fails OutOfGasError)).
Proof.
  intros Hn price. split.
  - intros p q Hp Hq. pow_contract Hn pow_bn128_add; [reflexivity|]. intros e w.
    rewrite (proj2 (bn_g1_iff _ _ _) Hp), (proj2 (bn_g1_iff _ _ _) Hq).
    destruct (bn128_add cr p q) as [x y]. reflexivity.
  - intros H. pow_contract Hn pow_bn128_add; [reflexivity|]. intros e w.
    destruct (bn128_bytes_to_g1 (buffer_read d 0 64)) as [p|] eqn:Ep; [|reflexivity].
    destruct (bn128_bytes_to_g1 (buffer_read d 64 64)) as [q|] eqn:Eq; [|reflexivity].
    destruct (H p q). split; by apply bn_g1_iff.
Qed.
Theorem C84_bn128_mul cr n d : since Byzantium n = true ->
  let price := if since Istanbul n then 6000 else 40000 in
  (forall p, bn_point d 0 p ->
     pow_answers cr n 7 d price (Output (encode1 32 (bn128_mul cr p (number d 64 32))))) /\
  ((forall p, ~ bn_point d 0 p) -> pow_answers cr n 7 d price (Fails OutOfGasError)).
Proof.
  intros Hn price. split.
  - intros p Hp. pow_contract Hn pow_bn128_mul; [reflexivity|]. intros e w.
    rewrite (proj2 (bn_g1_iff _ _ _) Hp), number_word.
    destruct (bn128_mul cr p _) as [x y]. reflexivity.
  - intros H. pow_contract Hn pow_bn128_mul; [reflexivity|]. intros e w.
    by rewrite (option_none _ _ (bn_g1_iff d 0) H).
Qed.
Theorem C84_bn128_pairing cr n d : since Byzantium n = true ->
  let k := lenN d / 192 in
  let price := if since Istanbul n then 45000 + 34000 * k else 100000 + 80000 * k in
  (forall l, lenN d = 192 * k -> records 192 k (bn_pair cr d) l ->
     pow_answers cr n 8 d price (Output (encode 32 (if bn128_pairing_is_one cr l then 1 else 0)))) /\
  ((forall l, ~ (lenN d = 192 * k /\ records 192 k (bn_pair cr d) l)) ->
     pow_answers cr n 8 d price (Fails OutOfGasError)).
Proof.
  intros Hn k price. pose proof (N.div_mod (lenN d) 192) as Hdm.
  assert (Hp : (if PowVm.since Istanbul n then 34000 * (lenN d / 192) + 45000
    else 80000 * (lenN d / 192) + 100000) = price).
  { unfold price. change PowVm.since with since. fold k. destruct (since Istanbul n); lia. }
  clearbody price. subst k.
  split.
  - intros l Hk Hl. pow_contract Hn pow_bn128_pairing; [rewrite Hp; reflexivity|]. intros e w.
    replace (lenN d mod 192 =? 0) with true by lia. cbn [negb].
    unfold bn128_pairing. apply records_eq in Hl. apply bn_pairs_iff in Hl. rewrite Hl.
    by destruct (bn128_pairing_is_one cr l).
  - intros H. pow_contract Hn pow_bn128_pairing; [rewrite Hp; reflexivity|]. intros e w.
    destruct (lenN d mod 192 =? 0) eqn:Em; cbn [negb]; [|reflexivity].
    unfold bn128_pairing. destruct (bn128_pairs _ _ _ _) as [l|] eqn:El; [|reflexivity].
    destruct (H l). split; [lia|]. apply records_eq. by apply bn_pairs_iff.
Qed.

(** BLAKE2: EIP-152, from Istanbul. *)
Theorem C84_blake2f cr n d : since Istanbul n = true ->
  (lenN d <> 213 -> pow_rejects cr n 9 d InvalidParameter) /\
  (lenN d = 213 ->
   pow_answers cr n 9 d (number d 0 4)
     (if number d 212 1 <=? 1
      then Output (concat (map (fun x => rev (encode 8 x)) (blake2_answer d)))
      else Fails InvalidParameter)).
Proof.
  intros Hn. destruct (C58_blake2f cr d) as [H1 H2].
  assert (E : pow_precompile cr n 9 = pre_compiled_contracts cr Osaka 9) by in_fork Hn.
  split; intros H.
  - destruct (H1 H) as (op & Ho & Hx). exists op. by rewrite E.
  - apply answers_same; [done|auto].
Qed.

(** ** Calls *)

(** The call fails: all gas is taken and nothing else has happened. *)
Definition pow_call_fails (x : halt) (w : world) (e : evm) (t : gset address) (w' : world) : Prop :=
  e_error e = Some (EHalt x) /\ e_gas_left e = 0 /\ e_output e = [] /\ t = ∅ /\ same_reads w w'.
(** The call succeeds: the price is paid, the value has moved. *)
Definition pow_call_gives (m : message) (price : N) (out : bytes) (w : world) (e : evm)
    (t : gset address) (w' : world) : Prop :=
  e_error e = None /\ e_gas_left e + price = m_gas m /\ e_output e = out /\
  e_logs e = [] /\ e_refund_counter e = 0%Z /\ e_accounts_to_delete e = ∅ /\
  e_accessed_addresses e = m_accessed_addresses m /\
  e_accessed_storage_keys e = m_accessed_storage_keys m /\ t = ∅ /\
  exists w1, pow_sent m w w1 /\ same_reads w1 w'.

Theorem C84_message cr n env te inh m w e t w' a price r :
  m_depth m <= 1024 -> m_code_address m = Some a -> pow_answers cr n a (m_data m) price r ->
  pow_process_message cr n env te inh m w = PPRet e t w' ->
  (m_gas m < price -> pow_call_fails OutOfGasError w e t w') /\
  (price <= m_gas m ->
   match r with
   | Output out => pow_call_gives m price out w e t w'
   | Silent => pow_call_gives m price [] w e t w'
   | Fails x => pow_call_fails x w e t w'
   end).
Proof.
  intros Hd Ha (p & Hp & Hrun) H.
  destruct (C83_precompiled cr n env te inh m w e t w' a p Hd Ha Hp H) as (w1 & Hs & -> & HC).
  rewrite Hrun in HC by done. cbn [first_frame e_gas_left] in HC.
  assert (Hno : forall x e1 w2, e_output e1 = [] -> pow_concluded n w (Some (EHalt x)) e1 w2 e w' ->
    pow_call_fails x w e ∅ w').
  { intros x e1 w2 Ho (H1 & H2 & H3 & H4). rewrite Ho in H3. unfold pow_call_fails.
    split_and!; try done. by destruct (since Byzantium n). }
  destruct (N.ltb_spec (m_gas m) price) as [Hg|Hg].
  - split; [|lia]. intros _. eapply Hno; [|exact HC]. done.
  - split; [lia|]. intros _. destruct r as [out| |x].
    + destruct HC as (-> & He & Hw). unfold pow_call_gives. cbn. split_and!; try done; [lia|eauto].
    + destruct HC as (-> & He & Hw). unfold pow_call_gives. cbn. split_and!; try done; [lia|eauto].
    + eapply Hno; [|exact HC]. done.
Qed.
Theorem C84_message_rejected cr n env te inh m w e t w' a x :
  m_depth m <= 1024 -> m_code_address m = Some a -> pow_rejects cr n a (m_data m) x ->
  pow_process_message cr n env te inh m w = PPRet e t w' -> pow_call_fails x w e t w'.
Proof.
  intros Hd Ha (p & Hp & Hrun) H.
  destruct (C83_precompiled cr n env te inh m w e t w' a p Hd Ha Hp H) as (w1 & Hs & -> & HC).
  rewrite Hrun in HC by done. destruct HC as (H1 & H2 & H3 & H4). unfold pow_call_fails.
  split_and!; try done. by destruct (since Byzantium n).
Qed.

(** ** Examples *)
Definition ex_pow_ask (n : pow_name) (a gas : N) (d : bytes) : option (option exn * N * N * bytes) :=
  let w := toy_world [(0xaa, Account 0 50 [])] ∅ in
  match pow_process_message toy_crypto n ex_life_env toy_tx ∅ (toy_message a gas 7 d []) w with
  | PPRet e _ w' => Some (e_error e, e_gas_left e, balance (get_account (st w') a), takeN 2 (e_output e))
  | PPExc _ _ => None
  end.
(** A base of 100 bytes, an exponent of 40 and a modulus of 1 byte. *)
Definition ex_big_modexp : bytes :=
  zeros 31 ++ bs [100] ++ zeros 31 ++ bs [40] ++ zeros 31 ++ bs [1] ++
  zeros 99 ++ bs [3] ++ bs [1] ++ zeros 38 ++ bs [1; 5].
Example C84_nonvacuous :
  map (fun n => ex_pow_ask n 5 200000 ex_big_modexp) [Homestead; Byzantium; Berlin] =
    [Some (None, 200000, 7, []); Some (None, 59164, 7, bs [3]); Some (None, 182424, 7, bs [3])] /\
  bn_point ex_add 0 (1, 2) /\
  map (fun n => ex_pow_ask n 6 600 ex_add) [SpuriousDragon; Byzantium; Istanbul] =
    [Some (None, 600, 7, []); Some (None, 100, 7, bs [0; 0]); Some (None, 450, 7, bs [0; 0])] /\
  ex_pow_ask Byzantium 6 600 (bs [1]) = Some (Some (EHalt OutOfGasError), 0, 0, []) /\
  map (fun n => ex_pow_ask n 9 10 (ex_blake2 2 1)) [Constantinople; Istanbul] =
    [Some (None, 10, 7, []); Some (None, 8, 7, bs [0x41; 0x5e])] /\
  ex_pow_ask Frontier 4 100 (bs [7]) = Some (None, 82, 7, bs [7]).
Proof.
  split; [vm_compute; done|].
  split; [split; [done|split; [done|]; split; [done|right; done]]|].
  vm_compute. repeat split.
Qed.

Definition PropPowPre_theorems :=
  (@C84_ecrecover, @C84_sha256, @C84_ripemd160, @C84_identity, @C84_modexp, @C84_bn128_add,
   @C84_bn128_mul, @C84_bn128_pairing, @C84_blake2f, @C84_message, @C84_message_rejected).
Print Assumptions PropPowPre_theorems.
