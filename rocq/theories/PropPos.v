(** * PropPos: C85, what the forks from Paris to Prague do differently from
    Osaka in ways C50 to C58 do not describe.

    The model of the virtual machine (Vm.v to Interpreter.v) covers all forks
    since the merge; [b_fork] of the block environment says which one is meant,
    and the theorems about it hold in all of them unless a hypothesis says
    otherwise.  C50 to C53 describe instructions, calls and creations fork by
    fork.  Here: the modular exponentiation of EIP-2565, calls of precompiled
    contracts in any fork, the blob price of Cancun, and the two ways a message
    of a fork before Osaka can abort the block (C17). *)
From Verif Require Import PrecompileSpec.
From Verif Require Import Base State Rlp Bloom Transactions Trie Blocks Requests Fork Ethash Pow PowTx.
From Verif Require Import Vm Instructions Precompiles Interpreter PowVm StateSpec
  StateProofs NumericProofs ArithProofs EvmStep EvmFrame EvmInv InstrSpec InstrProofs EvmExamples
  PropPowRun PropFees PropFrames PropSafe PrecompileSpec PropPrecompiles PropBlake2 PropPowTx PropPowLife PropPowPre
  PropPowSafe.
From Coq Require Import ZifyBool ZifyN ZifyNat.
Ltac Zify.zify_post_hook ::= idtac.


(** ** Reference *)

(** Contract [a] of fork [f], called with [d], charges [price] and gives [r];
    nothing else in the frame and nothing in the world changes. *)
Definition answers_in (cr : crypto) (f : pos_fork) (a : address) (d : bytes) (price : N)
    (r : answer) : Prop :=
  exists op, pre_compiled_contracts cr f a = Some op /\
  forall e w, m_data (e_message e) = d ->
    op e w =
      if e_gas_left e <? price then Exc (EHalt OutOfGasError) e w
      else let e' := set_gas_left (e_gas_left e - price) e in
           match r with
           | Output out => Ret tt (set_output out e') w
           | Silent => Ret tt e' w
           | Fails x => Exc (EHalt x) e' w
           end.
(** With [price] gas or more it raises an exception nobody handles. *)
Definition crashes_in (cr : crypto) (f : pos_fork) (a : address) (d : bytes) (price : N) : Prop :=
  exists op, pre_compiled_contracts cr f a = Some op /\
  forall e w, m_data (e_message e) = d ->
    if e_gas_left e <? price then op e w = Exc (EHalt OutOfGasError) e w
    else exists e', op e w = Exc (ECrash OverflowError) e' w.

(** EIP-2565 *)
Definition modexp_price_2565 (bl el ml head : N) : N :=
  let steps := N.max 1 ((if el <=? 32 then 0 else 8 * (el - 32)) + N.log2 head) in
  N.max 200 (((N.max bl ml + 7) / 8) ^ 2 * steps / 3).

(** The complete series for the excess over the fraction of the fork. *)
Definition blob_fraction (f : pos_fork) : N :=
  match f with Paris | Shanghai | Cancun => 3338477 | Prague | Osaka => 5007716 end.
Definition fork_blob_price (f : pos_fork) (excess price : N) : Prop := exists n,
  term 1 excess (blob_fraction f) n = 0 /\
  price = terms_sum 1 excess (blob_fraction f) n / blob_fraction f.

(** ** C85 *)

Lemma modexp_berlin : pre_modexp_2565 = pow_modexp Berlin.
Proof. reflexivity. Qed.
Lemma modexp_before cr f : f <> Osaka -> pre_compiled_contracts cr f 5 = Some (pow_modexp Berlin).
Proof. intros H. rewrite <- modexp_berlin. by destruct f. Qed.

(** Modular exponentiation before Osaka.  There are no limits on the lengths;
    if the places of the operands exceed 2^256 the code raises an exception
    nobody handles, instead of running out of gas. *)
Theorem C85_modexp cr f d : f <> Osaka ->
  let bl := number d 0 32 in let el := number d 32 32 in let ml := number d 64 32 in
  let b := number d 96 bl in let x := number d (96 + bl) el in
  let m := number d (96 + bl + el) ml in
  let price := modexp_price_2565 bl el ml (number d (96 + bl) (N.min el 32)) in
  (96 + bl + el < 2 ^ 256 -> answers_in cr f 5 d price
     (Output (encode (N.to_nat ml) (if m =? 0 then 0 else b ^ x mod m)))) /\
  (bl = 0 -> ml = 0 -> answers_in cr f 5 d price (Output [])) /\
  (96 + bl < 2 ^ 256 -> 2 ^ 256 <= 96 + bl + el -> bl <> 0 \/ ml <> 0 ->
     crashes_in cr f 5 d price) /\
  (2 ^ 256 <= 96 + bl -> crashes_in cr f 5 d 0).
Proof.
  intros Hf bl el ml b x m price. pose proof (modexp_before cr f Hf) as Hop.
  destruct (C84_modexp cr Berlin d eq_refl) as (H1 & H2 & H3 & H4).
  assert (Hb : pow_precompile cr Berlin 5 = Some (pow_modexp Berlin)) by reflexivity.
  assert (Hpr : forall p q r h, pow_modexp_price Berlin p q r h = modexp_price_2565 p q r h) by reflexivity.
  rewrite Hpr in H1, H2, H3. fold bl el ml in H1, H2, H3, H4. fold b x m price in H1, H2, H3.
  revert Hop Hb H1 H2 H3 H4. generalize (pow_modexp Berlin). intros op Hop Hb H1 H2 H3 H4.
  split; [|split; [|split]].
  - intros H. destruct (H1 H) as (op' & E & Hr). rewrite Hb in E. apply (inj Some) in E as <-.
    exists op. split; [exact Hop|exact Hr].
  - intros A B. destruct (H2 A B) as (op' & E & Hr). rewrite Hb in E. apply (inj Some) in E as <-.
    exists op. split; [exact Hop|exact Hr].
  - intros A B C. destruct (H3 A B C) as (op' & E & Hr). rewrite Hb in E. apply (inj Some) in E as <-.
    exists op. split; [exact Hop|exact Hr].
  - intros H. destruct (H4 H) as (op' & E & Hr). rewrite Hb in E. apply (inj Some) in E as <-.
    exists op. split; [exact Hop|exact Hr].
Qed.

(** The other contracts of a fork are those of Osaka (C58). *)
Theorem C85_others cr f a d price r : pre_compiled_contracts cr f a <> None -> (a = 5 -> f = Osaka) ->
  answers cr a d price r -> answers_in cr f a d price r.
Proof. intros H H5 (op & E & Hr). exists op. split; [by apply pre_osaka|done]. Qed.

(** What a call of a precompiled contract gives, in any fork. *)
Theorem C85_message cr be te m w e w' a price r :
  m_depth m <= 1024 -> owned (st w) -> m_code_address m = Some a ->
  m_disable_precompiles m = false -> answers_in cr (b_fork be) a (m_data m) price r ->
  process_message cr be te m w = PRet e w' ->
  (m_gas m < price -> call_fails OutOfGasError w e w') /\
  (price <= m_gas m ->
   match r with
   | Output out => call_gives m price out w e w'
   | Silent => call_gives m price [] w e w'
   | Fails x => call_fails x w e w'
   end).
Proof.
  intros Hd Ho Ha Hdis (p & Hp & Hrun) H.
  destruct (C53_precompiled cr be te m w e w' a p Hd Ho Ha Hp H) as (w1 & Hs & HC).
  rewrite Hdis in HC. rewrite Hrun in HC by done. cbn [first_frame e_gas_left] in HC.
  destruct (N.ltb_spec (m_gas m) price) as [Hg|Hg].
  - split; [|lia]. intros _. exact HC.
  - split; [lia|]. intros _. destruct r as [out| |x]; cbn [concluded] in HC.
    + destruct HC as (-> & He & Hw). unfold call_gives. cbn. split_and!; try done; [lia|eauto].
    + destruct HC as (-> & He & Hw). unfold call_gives. cbn. split_and!; try done; [lia|eauto].
    + exact HC.
Qed.

(** The blob price that BLOBBASEFEE gives (C50), in any fork. *)
Theorem C85_blob_price f excess price :
  fork_blob_gas_price f excess = Some price <-> fork_blob_price f excess price.
Proof.
  assert (Hd : 0 < blob_fraction f) by (by destruct f).
  destruct (C33_series 1 excess (blob_fraction f) Hd) as (n & Z & S & E).
  assert (fork_blob_gas_price f excess = taylor_exponential 1 excess (blob_fraction f)) as -> by (by destruct f).
  rewrite E. split.
  - intros [= <-]. by exists n.
  - intros (m & Zm & ->). do 2 f_equal. destruct (le_ge_dec n m) as [H|H].
    + by rewrite (S m H).
    + apply sum_stable; done.
Qed.

(** ** C17 before Osaka *)

(** C17 (found).  Before Osaka a call of MODEXP that announces a base of
    2^256-1 bytes aborts the block, with any gas and in any environment; it
    should run out of gas instead. *)
Theorem C17_modexp_refuted cr be te gas : b_fork be <> Osaka -> gas < 2 ^ 256 ->
  msg_bounds (modexp_message gas) /\ funded (modexp_message gas) nothing /\ world_ok nothing /\
  owned (st nothing) /\
  exists w', process_message cr be te (modexp_message gas) nothing = PExc (ECrash OverflowError) w'.
Proof.
  intros Hf Hg. split; [by constructor|]. split; [intros _; cbn; lia|]. split.
  { constructor; intros; by vm_compute. }
  split; [intros a k; by vm_compute|].
  rewrite process_message_eq. change (1024 <? m_depth (modexp_message gas)) with false. cbv iota.
  generalize (process_message cr be te), (process_create_message cr be te). intros pm pcm.
  destruct be as [f ? ? ? ? ? ? ? ? ? ?]. cbn [b_fork] in Hf.
  destruct f; try done; eexists; vm_compute; reflexivity.
Qed.

(** C17 (found).  In Paris and Shanghai a contract with 2^255 wei that destroys
    itself for its own benefit aborts the block; with less, and since Cancun,
    it does not. *)
Theorem C17_selfdestruct_refuted cr be te :
  msg_bounds hoarder_message /\ funded hoarder_message (hoarder (2 ^ 255)) /\
  world_ok (hoarder (2 ^ 255)) /\ owned (st (hoarder (2 ^ 255))) /\
  (at_least Cancun (b_fork be) = false ->
   exists w', process_message cr be te hoarder_message (hoarder (2 ^ 255)) = PExc (ECrash OverflowError) w') /\
  (exists e w', process_message cr be te hoarder_message
     (hoarder (if at_least Cancun (b_fork be) then 2 ^ 255 else 2 ^ 255 - 1)) = PRet e w' /\
     e_error e = None /\
     total_balance (st w') = if at_least Cancun (b_fork be) then 2 ^ 255 else 0).
Proof.
  split; [by constructor|]. split; [intros _; cbn; lia|].
  split. { constructor; intros.
    - by vm_compute.
    - rewrite get_lookup. cbn [hoarder st main_trie].
      destruct (decide (a = 0x100)) as [->|Hne]; [by vm_compute|]. rewrite lookup_singleton_ne by done. by vm_compute.
    - by vm_compute.
    - by vm_compute. }
  split; [intros a k; by vm_compute|].
  rewrite !process_message_eq. change (1024 <? m_depth hoarder_message) with false. cbv iota.
  generalize (process_message cr be te), (process_create_message cr be te). intros pm pcm.
  destruct be as [f ? ? ? ? ? ? ? ? ? ?]. cbn [b_fork].
  split.
  - intros Hf. destruct f; try done; eexists; vm_compute; reflexivity.
  - destruct f; do 2 eexists; (split; [vm_compute; reflexivity|]); split; vm_compute; reflexivity.
Qed.

(** ** Examples *)
Definition fork_block (f : pos_fork) : block_env :=
  let b := toy_block in
  {| b_fork := f; b_chain_id := b_chain_id b; b_block_gas_limit := b_block_gas_limit b;
     b_block_hashes := b_block_hashes b; b_coinbase := b_coinbase b; b_number := b_number b;
     b_base_fee_per_gas := b_base_fee_per_gas b; b_time := b_time b; b_prev_randao := b_prev_randao b;
     b_excess_blob_gas := 10000000; b_parent_beacon_block_root := b_parent_beacon_block_root b |}.
Definition ex_fork_ask (f : pos_fork) (a gas : N) (d code : bytes)
  : option (option exn * N * N * bytes) :=
  let w := toy_world [(0xaa, Account 0 50 []); (0x200, Account 1 5 code)] ∅ in
  match process_message toy_crypto (fork_block f) toy_tx (toy_message a gas 7 d code) w with
  | PRet e w' => Some (e_error e, e_gas_left e, balance (get_account (st w') a), takeN 32 (e_output e))
  | PExc _ _ => None
  end.
Definition every_fork : list pos_fork := [Paris; Shanghai; Cancun; Prague; Osaka].
Definition ex_last (r : option (option exn * N * N * bytes)) : option (option exn * N * N * N) :=
  match r with
  | Some (x, g, b, out) => Some (x, g, b, from_be_bytes out)
  | None => None
  end.
Definition code_gives_price : bytes := bs [0x4a; 0x60;0; 0x52; 0x60;32; 0x60;0; 0xf3].
Definition code_dies : bytes := bs [0x30; 0xff].
Definition code_zero : bytes := bs [0x5f; 0x60;0; 0xf3].
Definition code_clz : bytes := bs [0x60;1; 0x1e; 0x60;0; 0x52; 0x60;32; 0x60;0; 0xf3].
(** A big exponentiation; an input no fork before Osaka survives; the contracts
    at 0x0a, 0x0b and 0x100; code that gives the blob price, that destroys
    itself, that pushes zero, that counts leading zeros. *)
Example C85_nonvacuous :
  map (fun f => ex_fork_ask f 5 200000 ex_big_modexp []) every_fork =
    repeat (Some (None, 182424, 7, bs [3])) 4 ++ [Some (None, 72912, 7, bs [3])] /\
  map (fun f => ex_fork_ask f 5 200000 huge_base []) every_fork =
    repeat None 4 ++ [Some (Some (EHalt ExceptionalHaltMsg), 0, 0, [])] /\
  map (fun f => ex_fork_ask f 0x0a 200000 [] []) every_fork =
    repeat (Some (None, 200000, 7, [])) 2 ++ repeat (Some (Some (EHalt KZGProofError), 0, 0, [])) 3 /\
  map (fun f => ex_fork_ask f 0x0b 200000 [] []) every_fork =
    repeat (Some (None, 200000, 7, [])) 3 ++ repeat (Some (Some (EHalt InvalidParameter), 0, 0, [])) 2 /\
  map (fun f => ex_fork_ask f 0x100 200000 [] []) every_fork =
    repeat (Some (None, 200000, 7, [])) 4 ++ [Some (None, 193100, 7, [])] /\
  map (fun f => ex_last (ex_fork_ask f 0x200 200000 [] code_gives_price)) every_fork =
    repeat (Some (Some (EHalt (InvalidOpcode Byte.x4a)), 0, 5, 0)) 2 ++
    [Some (None, 199983, 12, 19); Some (None, 199983, 12, 7); Some (None, 199983, 12, 7)] /\
  map (fun f => ex_last (ex_fork_ask f 0x200 200000 [] code_dies)) every_fork =
    repeat (Some (None, 194998, 0, 0)) 2 ++ repeat (Some (None, 194998, 12, 0)) 3 /\
  map (fun f => ex_last (ex_fork_ask f 0x200 200000 [] code_zero)) every_fork =
    Some (Some (EHalt (InvalidOpcode Byte.x5f)), 0, 5, 0) :: repeat (Some (None, 199995, 12, 0)) 4 /\
  map (fun f => ex_last (ex_fork_ask f 0x200 200000 [] code_clz)) every_fork =
    repeat (Some (Some (EHalt (InvalidOpcode Byte.x1e)), 0, 5, 0)) 4 ++ [Some (None, 199977, 12, 255)].
Proof. vm_compute. repeat split. Qed.

Definition PropPos_theorems :=
  (@C85_modexp, @C85_others, @C85_message, @C85_blob_price, @C17_modexp_refuted, @C17_selfdestruct_refuted).
Print Assumptions PropPos_theorems.
