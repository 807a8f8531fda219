(** * PropDelegation: C22 (EIP-7702 authorizations). *)
From Verif Require Import Base State Rlp Vm Instructions Precompiles Interpreter
  StateSpec StateProofs NumericProofs ArithProofs EvmStep EvmLocal EvmAccounts EvmInv EvmExamples.
From Coq Require Import ZifyBool ZifyN ZifyNat.
Ltac Zify.zify_post_hook ::= idtac.

Section C22.
  Context (cr : crypto) (be : block_env).
  Notation step := (set_delegation_step cr be).
  Notation run := (set_delegation_loop cr be).

  (** ** What a valid authorization is *)

  (** [au] signed the tuple: the signature is in canonical form and recovers,
      from keccak256(0x05 || rlp([chain_id, address, nonce])), a public key
      whose hash ends in [au]. *)
  Definition signed_by (t : authorization) (au : address) : Prop :=
    (a_y_parity t = 0 \/ a_y_parity t = 1) /\
    0 < a_r t < SECP256K1N /\ 0 < a_s t <= SECP256K1N / 2 /\
    exists pub,
      secp256k1_recover cr (a_r t) (a_s t) (a_y_parity t)
        (keccak256 cr ([Byte.x05] ++ encode (RList
          [RUint (a_chain_id t); RBytes (to_be_bytes20 (a_address t)); RUint (a_nonce t)])))
        = Some pub /\
      au = from_be_bytes (sliceN 12 32 (keccak256 cr pub)).

  (** An account that may be delegated: no code, or a delegation designator. *)
  Definition designator (a : address) : bytes :=
    [Byte.xef; Byte.x01; Byte.x00] ++ to_be_bytes20 a.
  Definition delegable (s : state) (au : address) : Prop :=
    code (get_account s au) = [] \/
    exists d, code (get_account s au) = [Byte.xef; Byte.x01; Byte.x00] ++ d /\ length d = 20%nat.

  Definition for_this_chain (t : authorization) : Prop :=
    a_chain_id t = b_chain_id be \/ a_chain_id t = 0.

  Definition applies (s : state) (t : authorization) (au : address) : Prop :=
    for_this_chain t /\ a_nonce t < 2 ^ 64 - 1 /\ signed_by t au /\ delegable s au /\
    a_nonce t = nonce (get_account s au).

  Lemma recover_spec t au : recover_authority cr t = Some au <-> signed_by t au.
  Proof.
    unfold recover_authority, signed_by.
    destruct (N.eqb_spec (a_y_parity t) 0) as [Hy0|Hy0];
      [|destruct (N.eqb_spec (a_y_parity t) 1) as [Hy1|Hy1]]; cbn [orb negb].
    3:{ split; [done|]. intros ([?|?] & _); done. }
    all: destruct (N.leb_spec (a_r t) 0), (N.leb_spec SECP256K1N (a_r t)); cbn [orb];
      try (split; [done|intros (_ & ? & _); lia]).
    all: destruct (N.leb_spec (a_s t) 0), (N.ltb_spec (SECP256K1N / 2) (a_s t)); cbn [orb];
      try (split; [done|intros (_ & _ & ? & _); lia]).
    all: unfold SET_CODE_TX_MAGIC, RAddress.
    all: destruct (secp256k1_recover _ _ _ _ _) as [pub|] eqn:E;
      [|split; [done|by intros (_ & _ & _ & ? & ? & _)]].
    all: split; [intros [= <-]; split_and!; eauto; lia|].
    all: intros (_ & _ & _ & pub' & [= <-] & ->); done.
  Qed.
  Lemma signed_unique t au au' : signed_by t au -> signed_by t au' -> au = au'.
  Proof. rewrite <- !recover_spec. congruence. Qed.

  Lemma valid_delegation_spec c : is_valid_delegation c = true <->
    exists d, c = [Byte.xef; Byte.x01; Byte.x00] ++ d /\ length d = 20%nat.
  Proof.
    unfold is_valid_delegation, EOA_DELEGATED_CODE_LENGTH, EOA_DELEGATION_MARKER_LENGTH, EOA_DELEGATION_MARKER.
    rewrite andb_true_iff, N.eqb_eq, bytes_eqb_eq. split.
    - intros [Hl Ht]. exists (dropN 3 c). split.
      + rewrite <- Ht. by rewrite takeN_dropN.
      + pose proof (lenN_dropN 3 c) as Hd. unfold lenN in *. lia.
    - intros (d & -> & Hd). split; [unfold lenN; cbn; lia|by apply takeN_app_exact].
  Qed.
  Lemma designator_valid a : is_valid_delegation (designator a) = true.
  Proof.
    apply valid_delegation_spec. exists (to_be_bytes20 a). split; [done|].
    pose proof (to_be_fixed_len 20 a) as H. unfold lenN in H. unfold to_be_bytes20. lia.
  Qed.
  Lemma delegable_spec s au : delegable s au <->
    negb (bytes_eqb (code (get_account s au)) []) &&
    negb (is_valid_delegation (code (get_account s au))) = false.
  Proof.
    unfold delegable. rewrite andb_false_iff, !negb_false_iff, bytes_eqb_eq, valid_delegation_spec. done.
  Qed.

  (** ** One tuple *)
  Definition new_code (t : authorization) : bytes :=
    if a_address t =? 0 then [] else designator (a_address t).

  (** Accounts with storage have a nonce or real code.  (Deployed contracts
      have code; a delegated account has a nonce, since applying the tuple
      incremented it.) *)
  Definition rooted (s : state) : Prop := forall a k, get_storage s a k <> 0 ->
    nonce (get_account s a) <> 0 \/ ~ delegable s a.

  Lemma rooted_owned s : rooted s -> owned s.
  Proof.
    intros H a k Hk. destruct (H a k Hk) as [?|Hd]; [by left|]. right. intros E. apply Hd. by left.
  Qed.

  Record applied_to (s s' : state) (t : authorization) (au : address) : Prop := {
    at_get : forall b, get_account s' b = if decide (au = b) then
      Account (nonce (get_account s au) + 1) (balance (get_account s au)) (new_code t)
      else get_account s b;
    at_sto : rooted s -> same_storage s s';
    at_frame : snapshots s' = snapshots s /\ created_accounts s' = created_accounts s;
  }.

  Lemma new_code_delegable t : new_code t = [] \/
    exists d, new_code t = [Byte.xef; Byte.x01; Byte.x00] ++ d /\ length d = 20%nat.
  Proof.
    unfold new_code. destruct (_ =? 0); [by left|]. right.
    apply valid_delegation_spec, designator_valid.
  Qed.

  Lemma applied_rooted s s' t au : rooted s -> applied_to s s' t au -> rooted s'.
  Proof.
    intros Hr [Hg Hs _] a k. rewrite (Hs Hr). intros Hk. unfold delegable. rewrite Hg.
    destruct (decide (au = a)) as [<-|]; [left; cbn; lia|]. exact (Hr a k Hk).
  Qed.

  Lemma step_spec s acc r t s' acc' r' : step (s, acc, r) t = Ok (s', acc', r') ->
    (forall x, x ∈ acc' <-> x ∈ acc \/
       for_this_chain t /\ a_nonce t < 2 ^ 64 - 1 /\ signed_by t x) /\
    ((exists au, applies s t au /\ applied_to s s' t au /\
        r' = r + if account_exists s au then 12500 else 0) \/
     ((forall au, ~ applies s t au) /\ s' = s /\ r' = r)).
  Proof.
    unfold set_delegation_step.
    assert (Hch : negb ((a_chain_id t =? b_chain_id be) || (a_chain_id t =? 0)) = false <-> for_this_chain t).
    { unfold for_this_chain. rewrite negb_false_iff, orb_true_iff, !N.eqb_eq. done. }
    destruct (negb ((a_chain_id t =? _) || _)).
    { intros [= <- <- <-]. assert (Hn : ~ for_this_chain t) by (by rewrite <- Hch).
      split; [intros x; split; [by left|by intros [?|(? & _)]]|].
      right. split_and!; [by intros au (? & _)|done|done]. }
    apply proj1 in Hch. specialize (Hch eq_refl).
    unfold U64_MAX. destruct (N.leb_spec (2 ^ 64 - 1) (a_nonce t)) as [Hn|Hn].
    { intros [= <- <- <-].
      split; [intros x; split; [by left|intros [?|(_ & ? & _)]; [done|lia]]|].
      right. split_and!; [intros au (_ & ? & _); lia|done|done]. }
    destruct (recover_authority cr t) as [au|] eqn:Er.
    2:{ intros [= <- <- <-].
      assert (Hsg : forall x, ~ signed_by t x) by (intros x; rewrite <- recover_spec; congruence).
      split; [intros x; split; [by left|intros [?|(_ & _ & Hx)]; [done|by apply Hsg in Hx]]|].
      right. split_and!; [intros x (_ & _ & Hx & _); by apply Hsg in Hx|done|done]. }
    apply recover_spec in Er.
    assert (Hacc : forall x, x ∈ {[au]} ∪ acc <-> x ∈ acc \/
       for_this_chain t /\ a_nonce t < 2 ^ 64 - 1 /\ signed_by t x).
    { intros x. rewrite elem_of_union, elem_of_singleton. split.
      - intros [->|?]; [right; done|by left].
      - intros [?|(_ & _ & Hx)]; [by right|]. left. by eapply signed_unique. }
    pose proof (delegable_spec s au) as Hde.
    destruct (negb (bytes_eqb (code (get_account s au)) []) && _) eqn:Ed.
    { intros [= <- <- <-]. split; [done|]. right. split_and!; [|done|done].
      intros x (_ & _ & Hx & Hd & _). rewrite (signed_unique _ _ _ Hx Er) in Hd.
      by apply Hde in Hd. }
    apply proj2 in Hde. specialize (Hde eq_refl).
    destruct (N.eqb_spec (nonce (get_account s au)) (a_nonce t)) as [Hne|Hne]; cbn [negb].
    2:{ intros [= <- <- <-]. split; [done|]. right. split_and!; [|done|done].
      intros x (_ & _ & Hx & _ & Hd). rewrite (signed_unique _ _ _ Hx Er) in Hd. done. }
    destruct (if account_exists s au then _ else _) as [rc|] eqn:Erc; [|done].
    change (if a_address t =? NULL_ADDRESS then [] else
      EOA_DELEGATION_MARKER ++ to_be_bytes20 (a_address t)) with (new_code t).
    destruct (set_code s au (new_code t)) as [s1|] eqn:E1; [|done].
    destruct (increment_nonce s1 au) as [s2|] eqn:E2; [|done].
    intros [= -> <- ->]. split; [done|]. left. exists au.
    split; [by split_and!|]. split.
    2:{ destruct (account_exists s au); [|injection Erc as <-; lia].
        apply to_u256_inv in Erc as [-> _]. done. }
    pose proof (set_code_get _ _ _ _ E1) as G1. pose proof (increment_nonce_get _ _ _ E2) as G2.
    constructor.
    - intros b. rewrite G2. destruct (decide (au = b)) as [<-|Hb]; rewrite G1;
        [by rewrite decide_True|by rewrite decide_False].
    - intros Hr.
      assert (Hs1 : same_storage s s1).
      { destruct (modify_state_storages _ _ _ _ E1) as [E|(_ & Hem & E)]; [by apply get_storage_tries|].
        intros b k. rewrite !get_storage_slot, E. unfold slot_of at 1.
        destruct (decide (au = b)) as [<-|Hb]; [|by rewrite lookup_delete_ne].
        rewrite lookup_delete. cbn. destruct (N.eq_dec (slot_of (storage_tries s) au k) 0) as [->|Hk]; [done|].
        exfalso. injection Hem as Hem _ _. destruct (Hr au k) as [?|?]; [by rewrite get_storage_slot|done|done]. }
      assert (Ho1 : owned s1).
      { intros b k. rewrite Hs1. intros Hk. unfold solid. rewrite G1.
        destruct (decide (au = b)) as [<-|]; [|by apply (rooted_owned _ Hr b k)].
        left. cbn. by destruct (Hr au k Hk). }
      apply increment_nonce_same in E2 as [E2 _].
      eapply same_storage_trans; [exact Hs1|]. by apply E2.
    - unfold set_code in E1. unfold increment_nonce in E2.
      split; [apply modify_state_snapshots in E1, E2|apply modify_state_created in E1, E2]; congruence.
  Qed.

  (** ** A list of tuples *)

  (** The numbers [n], [n + 1], [n + 2], ... *)
  Fixpoint consecutive (n : N) (l : list N) : Prop :=
    match l with [] => True | x :: l => x = n /\ consecutive (n + 1) l end.
  (** The tuples of [l] signed by [a]; [l] pairs tuples with signers. *)
  Definition tuples_of (a : address) (l : list (authorization * address)) : list authorization :=
    (filter (fun p => p.2 = a) l).*1.

  Lemma tuples_of_nil a : tuples_of a [] = [].
  Proof. done. Qed.
  Lemma tuples_of_cons a t au l : tuples_of a ((t, au) :: l) =
    if decide (au = a) then t :: tuples_of a l else tuples_of a l.
  Proof. unfold tuples_of. rewrite filter_cons. cbn. by destruct (decide (au = a)). Qed.

  Record run_ok (L : list authorization) (s s' : state) (r r' : N)
      (applied : list (authorization * address)) : Prop := {
    ro_sub : sublist applied.*1 L;
    ro_valid : forall t au, (t, au) ∈ applied ->
      for_this_chain t /\ a_nonce t < 2 ^ 64 - 1 /\ signed_by t au /\ delegable s au;
    ro_nonces : forall a, consecutive (nonce (get_account s a)) (map a_nonce (tuples_of a applied));
    ro_nonce : forall a,
      nonce (get_account s' a) = nonce (get_account s a) + lenN (tuples_of a applied);
    ro_code : forall a, code (get_account s' a) =
      match last (tuples_of a applied) with
      | None => code (get_account s a)
      | Some t => if a_address t =? 0 then [] else designator (a_address t)
      end;
    ro_balance : forall a, balance (get_account s' a) = balance (get_account s a);
    ro_storage : forall a k, get_storage s' a k = get_storage s a k;
    ro_refund : r <= r' <= r + 12500 * lenN applied;
    ro_frame : snapshots s' = snapshots s /\ created_accounts s' = created_accounts s;
    ro_rooted : rooted s';
  }.

  Lemma last_cons_default (x : authorization) l :
    last (x :: l) = Some (default x (last l)).
  Proof.
    revert x. induction l as [|y l IH]; intros x; [done|]. rewrite last_cons_cons, IH. done.
  Qed.

  Lemma run_spec L : forall s acc r s' acc' r',
    run (s, acc, r) L = Ok (s', acc', r') -> rooted s ->
    (exists applied, run_ok L s s' r r' applied) /\
    (forall x, x ∈ acc' <-> x ∈ acc \/ exists t, t ∈ L /\
       for_this_chain t /\ a_nonce t < 2 ^ 64 - 1 /\ signed_by t x).
  Proof.
    induction L as [|t L IH]; intros s acc r s' acc' r' H Hr.
    { injection H as <- <- <-. split.
      - exists []. constructor; try done.
        + intros t au Ht. by apply elem_of_nil in Ht.
        + intros a. rewrite tuples_of_nil. unfold lenN. cbn [length]. lia.
        + unfold lenN. cbn [length]. lia.
      - intros x. split; [by left|]. intros [?|(t & Ht & _)]; [done|]. by apply elem_of_nil in Ht. }
    cbn [set_delegation_loop] in H.
    destruct (step (s, acc, r) t) as [[[s1 acc1] r1]|] eqn:E; [|done].
    destruct (step_spec _ _ _ _ _ _ _ E) as [Hacc Hst].
    assert (Hr1 : rooted s1).
    { destruct Hst as [(au & _ & Ha & _)|(_ & -> & _)]; [by eapply applied_rooted|done]. }
    destruct (IH _ _ _ _ _ _ H Hr1) as [(ap & Hap) Hacc'].
    split.
    2:{ intros x. rewrite Hacc', Hacc. split.
        - intros [[?|Hx]|(u & Hu & Hx)]; [by left|right; exists t|right; exists u]; (split; [|done]); [left|by right].
        - intros [?|(u & Hu & Hx)]; [by left; left|]. apply elem_of_cons in Hu as [->|Hu]; [by left; right|].
          right. by exists u. }
    destruct Hst as [(au & Hau & Ha & Hrr)|(_ & -> & ->)].
    2:{ exists ap. destruct Hap. constructor; try done. by apply sublist_cons. }
    exists ((t, au) :: ap). destruct Hap as [P1 P2 P3 P4 P5 P6 P7 P8 P9 P10].
    destruct Hau as (A1 & A2 & A3 & A4 & A5). destruct Ha as [G Hsto Hfr]. constructor.
    - cbn. by apply sublist_skip.
    - intros u b Hu. apply elem_of_cons in Hu as [[= -> ->]|Hu]; [done|].
      destruct (P2 _ _ Hu) as (B1 & B2 & B3 & B4). split_and!; try done.
      revert B4. unfold delegable at 1. rewrite G. destruct (decide (au = b)) as [<-|]; done.
    - intros a. rewrite tuples_of_cons. specialize (P3 a). rewrite G in P3.
      destruct (decide (au = a)) as [<-|]; [|done]. cbn in P3 |- *. done.
    - intros a. rewrite P4, G, tuples_of_cons. destruct (decide (au = a)) as [<-|]; [|done].
      cbn [nonce]. rewrite lenN_cons. lia.
    - intros a. rewrite P5, G, tuples_of_cons. destruct (decide (au = a)) as [<-|]; [|done].
      rewrite last_cons_default. destruct (last (tuples_of au ap)); done.
    - intros a. rewrite P6, G. by destruct (decide (au = a)) as [<-|].
    - intros a k. rewrite P7. by apply Hsto.
    - rewrite lenN_cons. destruct (account_exists s au); lia.
    - destruct Hfr, P9. split; congruence.
    - done.
  Qed.

  Lemma consecutive_lt l : forall n t, consecutive n (map a_nonce l) -> t ∈ l ->
    a_nonce t < n + lenN l.
  Proof.
    induction l as [|x l IH]; intros n t H Ht; [by apply elem_of_nil in Ht|].
    destruct H as [Hx H]. rewrite lenN_cons. apply elem_of_cons in Ht as [->|Ht]; [lia|].
    specialize (IH _ _ H Ht). lia.
  Qed.
  Lemma sublist_elem (l k : list authorization) x : sublist l k -> x ∈ l -> x ∈ k.
  Proof. intros H Hx. apply sublist_submseteq in H. by eapply elem_of_submseteq. Qed.
  Lemma replayed t au s acc r : signed_by t au -> a_nonce t < nonce (get_account s au) ->
    exists acc', run (s, acc, r) [t] = Ok (s, acc', r).
  Proof.
    intros Hs Hn. cbn [set_delegation_loop]. unfold set_delegation_step.
    apply recover_spec in Hs.
    destruct (negb (_ || _)); [by eexists|]. destruct (U64_MAX <=? _); [by eexists|].
    rewrite Hs. destruct (negb _ && negb _); [by eexists|].
    destruct (N.eqb_spec (nonce (get_account s au)) (a_nonce t)); [lia|]. by eexists.
  Qed.

  Context (te : tx_env).

  (** C22.  The effect of an authorization list.  There is a list of applied
      tuples, in order, each paired with its signer, such that:
      - they come from the transaction, are for this chain (or any chain),
        are signed by the account they change, and that account had no code
        or a delegation before;
      - the nonces of the tuples applied to one account are its nonce, its
        nonce plus one, and so on, and its nonce grows by their number;
      - the code of a changed account is what its last tuple says: nothing,
        or the 23-byte designator; every other account keeps its code;
      - no balance and no storage slot changes;
      - a tuple that was applied cannot be applied again: in every state where
        the signer's nonce is not lower, processing it changes nothing. *)
  Theorem C22_delegations m w r m' w' :
    set_delegation cr be te m w = inr (r, m', w') -> rooted (st w) ->
    exists applied : list (authorization * address),
      sublist applied.*1 (t_authorizations te) /\
      (forall t au, (t, au) ∈ applied ->
         (a_chain_id t = b_chain_id be \/ a_chain_id t = 0) /\ a_nonce t < 2 ^ 64 - 1 /\
         signed_by t au /\ delegable (st w) au) /\
      (forall a, let mine := tuples_of a applied in
         consecutive (nonce (get_account (st w) a)) (map a_nonce mine) /\
         nonce (get_account (st w') a) = nonce (get_account (st w) a) + lenN mine /\
         code (get_account (st w') a) =
           match last mine with
           | None => code (get_account (st w) a)
           | Some t => if a_address t =? 0 then [] else designator (a_address t)
           end /\
         balance (get_account (st w') a) = balance (get_account (st w) a)) /\
      (forall a k, get_storage (st w') a k = get_storage (st w) a k) /\
      ts w' = ts w /\ r <= 12500 * lenN applied /\
      (forall t au, (t, au) ∈ applied -> forall s acc r0,
         nonce (get_account (st w') au) <= nonce (get_account s au) ->
         exists acc', set_delegation_loop cr be (s, acc, r0) [t] = Ok (s, acc', r0)).
  Proof.
    unfold set_delegation. intros H Hr.
    destruct (run _ _) as [[[s acc] rc]|] eqn:E; [|done].
    destruct (m_code_address m); [|done]. injection H as <- <- <-.
    destruct (run_spec _ _ _ _ _ _ _ E Hr) as [(ap & []) _].
    exists ap. split; [done|]. split; [exact ro_valid0|].
    split. { intros a. cbv zeta. split_and!; auto. } split; [done|]. split; [done|]. split; [lia|].
    intros t au Ht s0 acc0 r0 Hn. destruct (ro_valid0 _ _ Ht) as (V1 & V2 & V3 & _).
    apply (replayed _ au); [done|]. eapply N.lt_le_trans; [|exact Hn]. cbn. rewrite ro_nonce0.
    eapply consecutive_lt; [apply ro_nonces0|]. apply elem_of_list_fmap.
    exists (t, au). split; [done|]. by apply elem_of_list_filter.
  Qed.

  (** Exactly the tuples that apply are applied, one after the other, each in
      the state left by those before it; 12500 is refunded for each whose
      account existed. *)
  Inductive authorizes : state -> list authorization -> state -> N -> Prop :=
  | No_more s : authorizes s [] s 0
  | Skipped s t l s' r :
      (forall au, ~ applies s t au) -> authorizes s l s' r -> authorizes s (t :: l) s' r
  | Applied s t au s1 l s' r :
      applies s t au -> applied_to s s1 t au -> authorizes s1 l s' r ->
      authorizes s (t :: l) s'
        ((match get_account_optional s au with Some _ => 12500 | None => 0 end) + r).
  Theorem C22_exact m w r m' w' :
    set_delegation cr be te m w = inr (r, m', w') ->
    authorizes (st w) (t_authorizations te) (st w') r.
  Proof.
    unfold set_delegation. intros H.
    destruct (run _ _) as [[[s acc] rc]|] eqn:E; [|done].
    destruct (m_code_address m); [|done]. injection H as <- <- <-. cbn [st set_st].
    assert (G : forall l s acc r s' acc' r', run (s, acc, r) l = Ok (s', acc', r') ->
      exists r1, r' = r + r1 /\ authorizes s l s' r1).
    { clear. induction l as [|t l IH]; intros s acc r s' acc' r' H.
      - injection H as <- _ <-. exists 0. split; [lia|constructor].
      - cbn [set_delegation_loop] in H.
        destruct (step (s, acc, r) t) as [[[s1 acc1] r1]|] eqn:E; [|done].
        apply IH in H as (r2 & -> & H).
        destruct (step_spec _ _ _ _ _ _ _ E) as [_ [(au & Ha & Hto & ->)|(Hn & -> & ->)]].
        + eexists. split; [|by eapply Applied]. unfold account_exists.
          destruct (get_account_optional s au); lia.
        + exists r2. split; [lia|]. by constructor. }
    destruct (G _ _ _ _ _ _ _ E) as (r1 & -> & H). by rewrite N.add_0_l.
  Qed.

  (** An account without an applied tuple is left alone. *)
  Corollary C22_others m w r m' w' a :
    set_delegation cr be te m w = inr (r, m', w') -> rooted (st w) ->
    (forall t, t ∈ t_authorizations te -> ~ signed_by t a) \/ ~ delegable (st w) a ->
    get_account (st w') a = get_account (st w) a.
  Proof.
    intros H Hr Hn. destruct (C22_delegations _ _ _ _ _ H Hr) as (ap & H1 & H2 & H3 & _).
    assert (E : tuples_of a ap = []).
    { unfold tuples_of. destruct (filter _ ap) as [|[t au] l] eqn:E; [done|]. exfalso.
      assert (Hin : (t, au) ∈ filter (fun p => p.2 = a) ap) by (rewrite E; left).
      apply elem_of_list_filter in Hin as [Ha Hin]. cbn in Ha. subst au.
      destruct (H2 _ _ Hin) as (_ & _ & Hs & Hd). destruct Hn as [Hn|Hn]; [|done].
      apply (Hn t); [|done]. eapply sublist_elem; [exact H1|]. apply elem_of_list_fmap. by exists (t, a). }
    destruct (H3 a) as (_ & Hno & Hc & Hb). rewrite E in Hno, Hc.
    unfold lenN in Hno. cbn in Hno, Hc. rewrite N.add_0_r in Hno.
    destruct (get_account (st w') a), (get_account (st w) a). cbn in *. congruence.
  Qed.

  (** What the message becomes: the code at its code address is read again,
      and every signer of a well-formed tuple is warm. *)
  Theorem C22_message m w r m' w' :
    set_delegation cr be te m w = inr (r, m', w') -> rooted (st w) ->
    exists ca, m_code_address m = Some ca /\ m_code m' = code (get_account (st w') ca) /\
    (forall x, x ∈ m_accessed_addresses m' <-> x ∈ m_accessed_addresses m \/
       exists t, t ∈ t_authorizations te /\
         (a_chain_id t = b_chain_id be \/ a_chain_id t = 0) /\ a_nonce t < 2 ^ 64 - 1 /\
         signed_by t x).
  Proof.
    unfold set_delegation. intros H Hr.
    destruct (run _ _) as [[[s acc] rc]|] eqn:E; [|done].
    destruct (m_code_address m) as [ca|] eqn:Ec; [|done]. injection H as <- <- <-.
    exists ca. split; [done|]. split; [done|]. exact (proj2 (run_spec _ _ _ _ _ _ _ E Hr)).
  Qed.

  (** The loop raises nothing unless there are more than 2^242 tuples. *)
  Theorem C22_total m w : m_code_address m <> None ->
    12500 * lenN (t_authorizations te) < 2 ^ 256 ->
    exists r m' w', set_delegation cr be te m w = inr (r, m', w').
  Proof.
    intros Hc Hl. unfold set_delegation.
    assert (G : forall L s acc r, r + 12500 * lenN L < 2 ^ 256 ->
      exists s' acc' r', run (s, acc, r) L = Ok (s', acc', r')).
    { induction L as [|t L IH]; intros s acc r Hr; [by do 3 eexists|].
      rewrite lenN_cons in Hr. cbn [set_delegation_loop].
      destruct (step (s, acc, r) t) as [[[s1 acc1] r1]|] eqn:E.
      - apply IH. destruct (step_spec _ _ _ _ _ _ _ E) as [_ [(au & _ & _ & ->)|(_ & _ & ->)]];
          [destruct (account_exists s au)|]; lia.
      - exfalso. revert E. unfold set_delegation_step.
        destruct (negb _); [done|]. destruct (U64_MAX <=? _); [done|].
        destruct (recover_authority cr t) as [au|]; [|done].
        destruct (negb _ && negb _); [done|]. destruct (negb _); [done|].
        assert (exists rc, (if account_exists s au
          then to_u256 (r + (PER_EMPTY_ACCOUNT_COST - PER_AUTH_BASE_COST)) else Ok r) = Ok rc) as [rc ->].
        { destruct (account_exists s au); [|by eexists]. unfold to_u256.
          destruct (N.ltb_spec (r + (PER_EMPTY_ACCOUNT_COST - PER_AUTH_BASE_COST)) U256_CEIL) as [|Hx]; [by eexists|].
          unfold PER_EMPTY_ACCOUNT_COST, PER_AUTH_BASE_COST, U256_CEIL in Hx. lia. }
        done. }
    destruct (G (t_authorizations te) (st w) (m_accessed_addresses m) 0) as (s' & acc' & r' & ->); [lia|].
    destruct (m_code_address m); [|done]. by do 3 eexists.
  Qed.
End C22.

(** ** Example: a crypto whose recovery always yields one key; account [0x11]
    signs two tuples (nonce 0, then nonce 1) and another replays nonce 0. *)
Definition signer_crypto : crypto := {|
  keccak256 := toy_hash; sha256_digest := toy_hash; ripemd160_digest := toy_hash;
  secp256k1_recover := fun _ _ _ _ => Some (to_be_bytes32 0x11);
  secp256r1_verify := fun _ _ _ _ _ => false;
  bn128_add := fun p _ => p; bn128_mul := fun p _ => p;
  bn128_g2_mul := fun p _ => p; bn128_pairing_is_one := fun _ => true;
  bls_g1_add := fun p _ => p; bls_g1_mul := fun p _ => p; bls_g2_add := fun p _ => p;
  bls_g2_mul := fun p _ => p; bls_g2_neg := fun p => p; bls_map_to_g1 := fun x => (x, x);
  bls_map_to_g2 := fun x => (x, x); bls_pairing_is_one := fun _ => true;
  bls_g1_generator := (1, 2); bls_g2_generator := ((1, 2), (3, 4));
  bls_pubkey_to_g1 := fun _ => None; bls_signature_to_g2 := fun _ => None;
  bls_key_validate := fun _ => false |}.
Definition tuple_at (chain target n : N) : authorization := Authorization chain target n 0 1 1.
Definition delegation_tx : tx_env := {|
  t_origin := 0xaa; t_gas_price := 12; t_gas := 1000000;
  t_access_list_addresses := ∅; t_access_list_storage_keys := ∅;
  t_blob_versioned_hashes := [];
  t_authorizations := [tuple_at 1 0x77 0; tuple_at 2 0x99 1; tuple_at 0 0x78 1; tuple_at 1 0x77 0] |}.
Definition delegation_world : world := toy_world [(0x11, Account 0 5 [])] ∅.
Example C22_nonvacuous :
  rooted (st delegation_world) /\
  match set_delegation signer_crypto toy_block delegation_tx
    (toy_message 0x11 1000000 0 [] []) delegation_world with
  | inr (r, m', w') => r = 25000 /\
      get_account (st w') 0x11 = Account 2 5 (designator 0x78) /\ m_code m' = designator 0x78
  | inl _ => False
  end.
Proof.
  split; [intros a k H; exfalso; by apply H|]. vm_compute. repeat split.
Qed.

Definition PropDelegation_theorems :=
  (@C22_delegations, @C22_exact, @C22_others, @C22_message, @C22_total).
Print Assumptions PropDelegation_theorems.
