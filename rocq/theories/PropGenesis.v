(** * PropGenesis: the first block of a chain (C68) *)
From Coq Require Import ZifyBool ZifyN ZifyNat Strings.String.
From Verif Require Import Base State Rlp Vm Instructions Precompiles Interpreter StateSpec StateProofs PropState
  NumericProofs ArithProofs EvmStep EvmRule EvmAccounts EvmInv RlpProofs PropRlp PropSafe PropFees PropTx PropCalls
  PropRefund PropDelegation Trie TrieProofs PropTrie Bloom PropBloom Transactions Blocks Requests Fork PropBlocks
  ForkProofs PropWithdrawals TxProofs PropChain PropHeader EvmExamples ForkExamples PropTransaction PropOuter
  PropHistory PropAnchored PropCommit PropBody TotalProofs PropTotal.
From Verif Require Pow PropPow PropOmmers.
From Verif Require Import Hexadecimal PropHex Genesis.
Ltac Zify.zify_post_hook ::= idtac.
Local Close Scope string_scope.

(** ** Vocabulary *)

(** A number written in hexadecimal after "0x" or in decimal otherwise *)
Definition number (s : bytes) (n : N) : Prop :=
  (exists t, s = text "0x" ++ t /\ literal 16 t (Z.of_N n)) \/
  ((forall t, s <> text "0x" ++ t) /\ literal 10 s (Z.of_N n)).
Definition hex_word (n : N) (s : bytes) (x : N) : Prop := exists b, hex_padded n s b /\ x = from_be_bytes b.

(** An account that is to exist, and the slots of its storage *)
Record entry := Entry {
  en_address : address;
  en_account : account;
  en_storage : list (N * N);
}.
(** The text [fst p], [snd p] of an account says [x]. A missing nonce is zero
    and missing code is empty, but a balance has to be there. *)
Record declares (p : bytes * genesis_account) (x : entry) : Prop := {
  de_address : hex_word 20 (fst p) (en_address x);
  de_nonce : literal 10 (default (text "0") (ga_nonce (snd p))) (Z.of_N (nonce (en_account x)));
  de_balance : exists b, ga_balance (snd p) = Some b /\ number b (balance (en_account x)) /\
    balance (en_account x) < 2 ^ 256;
  de_code : hex_bytes (default (text "0x") (ga_code (snd p))) (code (en_account x));
  de_storage : Forall2 (fun p q => hex_word 32 (fst p) (fst q) /\ hex_number (snd p) (snd q) /\ snd q < 2 ^ 256)
    (ga_storage (snd p)) (en_storage x);
}.
(** Accounts at [a], and values of the slot [k] of [a], in the order given *)
Definition accounts_at (a : address) (l : list entry) : list account :=
  map en_account (filter (fun x => en_address x = a) l).
Definition values_at (a : address) (k : N) (l : list entry) : list N :=
  map snd (filter (fun p => fst p = k) (concat (map en_storage (filter (fun x => en_address x = a) l)))).
(** The state has the accounts and slots of [l], the later ones where there is
    more than one, and is [s] elsewhere. *)
Record installs (s : state) (l : list entry) (s' : state) : Prop := {
  in_account : forall a, get_account_optional s' a =
    match last (accounts_at a l) with Some acc => Some acc | None => get_account_optional s a end;
  in_storage : forall a k, get_storage s' a k =
    match last (values_at a k l) with Some v => v | None => get_storage s a k end;
  in_snapshots : snapshots s' = snapshots s;
  in_created : created_accounts s' = created_accounts s;
}.

(** ** Numbers *)
Lemma number_iff s n : hex_or_base_10_str_to_u256 s = Ok n <-> number s n /\ n < 2 ^ 256.
Proof.
  unfold hex_or_base_10_str_to_u256, number.
  assert (Hp : if has_hex_prefix s then exists t, s = text "0x" ++ t else forall t, s <> text "0x" ++ t).
  { destruct (has_hex_prefix s) eqn:E.
    - destruct s as [|c [|d s]]; [done|done|]. cbn [has_hex_prefix] in E.
      apply andb_true_iff in E as [->%eqb_byte ->%eqb_byte]. by exists s.
    - by intros t ->. }
  destruct (has_hex_prefix s).
  - destruct Hp as [t Ht]. destruct (C67_reads s) as (_ & _ & _ & -> & _). unfold hex_number.
    assert (Hu : forall t', unprefixed s t' <-> t' = t).
    { intros t'. split.
      - intros H. eapply unprefixed_unique; [exact H|by left].
      - intros ->. by left. }
    split; intros [H1 H2]; (split; [|exact H2]).
    + destruct H1 as (t' & ->%Hu & H1). left. by exists t.
    + destruct H1 as [(t' & H & H1)|[H _]]; [|by destruct (H t)].
      exists t'. split; [by left|done].
  - destruct (C67_int 10 s) as [(z & Hl & -> & Hu)|[Hn ->]]; [by left|..]; cbn [rbind].
    + unfold to_bounded, to_uint, U256_CEIL. destruct (Z.ltb_spec z 0) as [Hz|Hz]; cbn [rbind].
      * split; [done|]. intros [[(t & H & _)|[_ H]] _]; [by destruct (Hp t)|]. apply Hu in H. clear -H Hz. lia.
      * destruct (N.ltb_spec (Z.to_N z) (2 ^ 256)) as [Hb|Hb].
        -- split.
           ++ intros [= <-]. split; [|done]. right. by rewrite Z2N.id.
           ++ intros [[(t & H & _)|[_ H]] _]; [by destruct (Hp t)|]. apply Hu in H. f_equal. clear -H. lia.
        -- split; [done|]. intros [[(t & H & _)|[_ H]] Hn]; [by destruct (Hp t)|]. apply Hu in H.
           clear -H Hb Hn. lia.
    + split; [done|]. intros [[(t & H & _)|[_ H]] _]; [by destruct (Hp t)|]. by destruct (Hn _ H).
Qed.
Lemma number_error s : text_error (hex_or_base_10_str_to_u256 s).
Proof.
  unfold hex_or_base_10_str_to_u256. destruct (has_hex_prefix s); [apply C67_errors|].
  apply text_error_bind; [by apply text_error_int; left|]. intros. apply text_error_bounded.
Qed.
Lemma nonce_iff s n : (z <-- py_int 10 s ;; to_uint z) = Ok n <-> literal 10 s (Z.of_N n).
Proof.
  destruct (C67_int 10 s) as [(z & Hl & -> & Hu)|[Hn ->]]; [by left|..]; cbn [rbind].
  - unfold to_uint. destruct (Z.ltb_spec z 0) as [Hz|Hz]; split; try done.
    + intros H%Hu. clear -H Hz. lia.
    + intros [= <-]. by rewrite Z2N.id.
    + intros H%Hu. f_equal. clear -H. lia.
  - split; [done|]. intros H. by destruct (Hn _ H).
Qed.

(** ** The configuration *)
Record configures (j : genesis_json) (g : genesis_configuration) : Prop := {
  cf_chain_id : gj_chain_id j = Z.of_N (g_chain_id g) /\ g_chain_id g < 2 ^ 64;
  cf_difficulty : hex_number (gj_difficulty j) (g_difficulty g);
  cf_extra_data : hex_bytes (gj_extra_data j) (g_extra_data g);
  cf_gas_limit : hex_number (gj_gas_limit j) (g_gas_limit g);
  cf_nonce : hex_padded 8 (gj_nonce j) (g_nonce g);
  cf_timestamp : number (gj_timestamp j) (g_timestamp g) /\ g_timestamp g < 2 ^ 256;
  cf_accounts : g_initial_accounts g = gj_alloc j;
}.
(** The configuration has what the file says, or the file is malformed. *)
Theorem C68_configuration j :
  (forall g, get_genesis_configuration j = Ok g <-> configures j g) /\
  text_error (get_genesis_configuration j).
Proof.
  assert (Hid : forall n, to_bounded U64_CEIL (gj_chain_id j) = Ok n <-> gj_chain_id j = Z.of_N n /\ n < 2 ^ 64).
  { intros n. unfold to_bounded, to_uint, U64_CEIL. destruct (Z.ltb_spec (gj_chain_id j) 0) as [Hz|Hz]; cbn [rbind].
    - split; [done|]. intros [H _]. clear -H Hz. lia.
    - destruct (N.ltb_spec (Z.to_N (gj_chain_id j)) (2 ^ 64)) as [Hb|Hb]; split; try done.
      + intros [= <-]. by rewrite Z2N.id.
      + intros [H _]. f_equal. clear -H. lia.
      + intros [H Hn]. clear -H Hn Hb. lia. }
  split.
  - intros g. unfold get_genesis_configuration. split.
    + intros H.
      destruct (to_bounded _ _) as [id|] eqn:E1; [|done]. cbn [rbind] in H.
      pose proof (proj1 (Hid id) eq_refl) as Hid'.
      destruct (hex_to_uint (gj_difficulty j)) as [d|] eqn:E2; [|done]. cbn [rbind] in H. apply C67_reads in E2.
      destruct (hex_to_bytes (gj_extra_data j)) as [x|] eqn:E3; [|done]. cbn [rbind] in H. apply C67_reads in E3.
      destruct (hex_to_uint (gj_gas_limit j)) as [l|] eqn:E4; [|done]. cbn [rbind] in H. apply C67_reads in E4.
      destruct (hex_to_bytes8 (gj_nonce j)) as [n|] eqn:E5; [|done]. cbn [rbind] in H. apply C67_reads in E5.
      destruct (hex_or_base_10_str_to_u256 _) as [t|] eqn:E6; [|done]. cbn [rbind] in H. apply number_iff in E6.
      injection H as <-. by constructor.
    + intros [E1%Hid E2%C67_reads E3%C67_reads E4%C67_reads E5%C67_reads E6%number_iff E7].
      rewrite E1, E2, E3, E4, E5, E6. cbn [rbind]. rewrite <- E7. by destruct g.
  - unfold get_genesis_configuration.
    apply text_error_bind; [apply text_error_bounded|intros ?]. apply text_error_bind; [apply C67_errors|intros ?].
    apply text_error_bind; [apply C67_errors|intros ?]. apply text_error_bind; [apply C67_errors|intros ?].
    apply text_error_bind; [apply C67_errors|intros ?]. by apply text_error_bind; [apply number_error|intros ?].
Qed.

(** ** The state *)
Definition genesis_error (c : crash) : Prop := c = ValueError \/ c = OverflowError \/ c = AttributeError.
Lemma text_genesis {A} (r : result A) c : text_error r -> r = Raise c -> c = ValueError \/ c = OverflowError.
Proof. by intros H ->. Qed.

Lemma read_account_iff j acc : genesis_read_account j = Ok acc <->
  literal 10 (default (text "0") (ga_nonce j)) (Z.of_N (nonce acc)) /\
  (exists b, ga_balance j = Some b /\ number b (balance acc) /\ balance acc < 2 ^ 256) /\
  hex_bytes (default (text "0x") (ga_code j)) (code acc).
Proof.
  unfold genesis_read_account. fold (text "0"). fold (text "0x"). rewrite <- nonce_iff.
  destruct (py_int 10 _) as [z|]; cbn [rbind]; [|by split; [|intros [? _]]].
  destruct (to_uint z) as [n|]; cbn [rbind]; [|by split; [|intros [? _]]].
  destruct (ga_balance j) as [b|]; cbn [rbind]; [|by split; [|intros (_ & (b & ? & _) & _)]].
  destruct (hex_or_base_10_str_to_u256 b) as [v|] eqn:Eb; cbn [rbind].
  2:{ split; [done|]. intros (_ & (b' & [= <-] & H) & _). apply number_iff in H. congruence. }
  apply number_iff in Eb as [Eb1 Eb2].
  destruct (hex_to_bytes _) as [x|] eqn:Ex; cbn [rbind].
  2:{ split; [done|]. intros (_ & _ & H). apply C67_reads in H. congruence. }
  apply C67_reads in Ex. split.
  - intros [= <-]. cbn [nonce balance code]. split; [done|]. split; [by exists b|done].
  - intros ([= ->] & (b' & [= <-] & H) & H'). destruct acc as [n' b' c']. cbn [nonce balance code] in *.
    apply number_iff in H. pose proof (conj Eb1 Eb2) as H0. apply number_iff in H0. rewrite H in H0.
    injection H0 as ->. apply C67_reads in Ex, H'. rewrite Ex in H'. by injection H' as ->.
Qed.
Lemma read_account_error j c : genesis_read_account j = Raise c ->
  genesis_error c /\ (c = AttributeError -> ga_balance j = None).
Proof.
  unfold genesis_read_account, genesis_error. intros H.
  destruct (py_int 10 _) as [z|e] eqn:E1; cbn [rbind] in H.
  2:{ injection H as <-. eapply text_genesis in E1; [|by apply text_error_int; left].
      destruct E1 as [-> | ->]; split; auto; discriminate. }
  destruct (to_uint z) as [n|e] eqn:E2; cbn [rbind] in H.
  2:{ unfold to_uint in E2. destruct (_ <? _)%Z; [|done]. injection E2 as <-. injection H as <-.
      split; auto; discriminate. }
  destruct (ga_balance j) as [b|]; cbn [rbind] in H; [|by injection H as <-; auto].
  destruct (hex_or_base_10_str_to_u256 b) as [v|e] eqn:E3; cbn [rbind] in H.
  2:{ injection H as <-. pose proof (number_error b) as Ht. rewrite E3 in Ht.
      destruct Ht as [-> | ->]; split; auto; discriminate. }
  destruct (hex_to_bytes _) as [x|e] eqn:E4; cbn [rbind] in H; [done|].
  injection H as <-. eapply text_genesis in E4; [|apply C67_errors].
  destruct E4 as [-> | ->]; split; auto; discriminate.
Qed.

(** Slots written at one address *)
Definition put (s : state) (a : address) (l : list (N * N)) (s' : state) : Prop :=
  main_trie s' = main_trie s /\ snapshots s' = snapshots s /\ created_accounts s' = created_accounts s /\
  (forall b k, b <> a -> get_storage s' b k = get_storage s b k) /\
  (forall k, get_storage s' a k =
     match last (map snd (filter (fun p => fst p = k) l)) with Some v => v | None => get_storage s a k end).
Lemma storage_spec l : forall s a acc, main_trie s !! a = Some acc ->
  (exists q, Forall2 (fun p q => hex_word 32 (fst p) (fst q) /\ hex_number (snd p) (snd q) /\ snd q < 2 ^ 256) l q /\
     exists s', genesis_storage s a l = Ok s' /\ put s a q s') \/
  ((forall q, ~ Forall2 (fun p q => hex_word 32 (fst p) (fst q) /\ hex_number (snd p) (snd q) /\ snd q < 2 ^ 256) l q) /\
   exists c, genesis_storage s a l = Raise c /\ (c = ValueError \/ c = OverflowError)).
Proof.
  induction l as [|[key value] l IH]; intros s a acc Ha.
  { left. exists []. split; [constructor|]. exists s. split; [done|]. by repeat split. }
  cbn [genesis_storage].
  destruct (hex_to_bytes32 key) as [kb|e] eqn:Ek; cbn [rbind].
  2:{ right. split; [|exists e; split; [done|]; by eapply text_genesis, Ek; apply C67_errors].
      intros q H. apply Forall2_cons_inv_l in H as (p & q' & ((b & H & _) & _) & _). cbn [fst] in H.
      apply C67_reads in H. congruence. }
  destruct (hex_to_u256 value) as [v|e] eqn:Ev; cbn [rbind].
  2:{ right. split; [|exists e; split; [done|]; by eapply text_genesis, Ev; apply C67_errors].
      intros q H. apply Forall2_cons_inv_l in H as (p & q' & (_ & H) & _). cbn [snd] in H.
      apply C67_reads in H. congruence. }
  set (k := from_be_bytes kb).
  assert (Hs : exists s1, set_storage s a k v = Ok s1).
  { apply C03_set_storage_defined. unfold account_exists, get_account_optional. by rewrite Ha. }
  destruct Hs as [s1 Es]. rewrite Es. cbn [rbind].
  pose proof (set_storage_get _ _ _ _ _ Es) as Hg. apply set_storage_inv in Es as [_ Es].
  assert (Hm : main_trie s1 = main_trie s /\ snapshots s1 = snapshots s /\ created_accounts s1 = created_accounts s).
  { by rewrite Es. }
  destruct Hm as (M1 & M2 & M3).
  destruct (IH s1 a acc) as [(q & Hq & s' & -> & P1 & P2 & P3 & P4 & P5)|[Hq (c & -> & Hc)]]; [by rewrite M1|..].
  - left. exists ((k, v) :: q). split.
    + constructor; [|done]. cbn [fst snd]. apply C67_reads in Ek, Ev. split; [by exists kb|done].
    + exists s'. split; [done|]. split; [congruence|]. split; [congruence|]. split; [congruence|]. split.
      * intros b j Hb. rewrite P4 by done. rewrite Hg. by rewrite decide_False by (intros [-> _]; done).
      * intros j. rewrite P5, Hg. rewrite filter_cons. cbn [fst]. destruct (decide (k = j)) as [->|Hj].
        -- cbn [map snd]. rewrite decide_True by done.
           destruct (map snd (filter _ q)) as [|x y] eqn:E; [done|].
           assert (Hl : last (v :: x :: y) = last (x :: y)) by done. rewrite Hl.
           destruct (last (x :: y)) eqn:E2; [done|]. by apply last_None in E2.
        -- by rewrite decide_False by (intros [_ ?]; done).
  - right. split; [|by exists c]. intros q0 H. apply Forall2_cons_inv_l in H as (p & q' & _ & H & _).
    by apply (Hq q').
Qed.
Lemma installs_nil s : installs s [] s.
Proof. constructor; done. Qed.
Lemma last_snd {A} (x : list A) y : last (x ++ y) = match last y with Some v => Some v | None => last x end.
Proof.
  destruct y as [|v y _] using rev_ind; [by rewrite app_nil_r|]. by rewrite app_assoc, !last_snoc.
Qed.
Lemma installs_cons s a acc q s1 l s2 :
  put (set_account s a (Some acc)) a q s1 -> installs s1 l s2 -> installs s (Entry a acc q :: l) s2.
Proof.
  intros (P1 & P2 & P3 & P4 & P5) [I1 I2 I3 I4]. constructor.
  - intros b. rewrite I1. unfold accounts_at. rewrite filter_cons. cbn [en_address].
    unfold get_account_optional. rewrite P1. unfold set_account, set_main. cbn [main_trie account_trie_set].
    destruct (decide (a = b)) as [->|Hb].
    + rewrite lookup_insert. cbn [map en_account].
      destruct (map en_account (filter _ l)) as [|x y] eqn:E; [done|].
      assert (Hl : last (acc :: x :: y) = last (x :: y)) by done. rewrite Hl.
      destruct (last (x :: y)) eqn:E2; [done|]. by apply last_None in E2.
    + by rewrite lookup_insert_ne by done.
  - intros b k. rewrite I2. unfold values_at. rewrite filter_cons. cbn [en_address].
    destruct (decide (a = b)) as [->|Hb].
    + cbn [map concat en_storage]. rewrite filter_app, map_app, last_snd. rewrite P5.
      by destruct (last (map snd (filter _ (concat _)))).
    + by rewrite P4 by done.
  - rewrite I3, P2. done.
  - rewrite I4, P3. done.
Qed.
(** The accounts and slots written in the file, and nothing else, are put into
    the state; or the file is malformed. *)
Theorem C68_state s l :
  (exists q s', Forall2 declares l q /\ genesis_state s l = Ok s' /\ installs s q s') \/
  ((forall q, ~ Forall2 declares l q) /\ exists c, genesis_state s l = Raise c /\ genesis_error c /\
     (c = AttributeError -> exists p, In p l /\ ga_balance (snd p) = None)).
Proof.
  revert s. induction l as [|[h j] l IH]; intros s.
  { left. exists [], s. split; [constructor|]. split; [done|apply installs_nil]. }
  cbn [genesis_state].
  destruct (hex_to_address h) as [a|e] eqn:Ea; cbn [rbind].
  2:{ right. split.
      - intros q H. apply Forall2_cons_inv_l in H as (x & q' & [H _ _ _ _] & _). cbn [fst] in H.
        apply C67_reads in H. congruence.
      - exists e. split; [done|]. eapply text_genesis in Ea; [|apply C67_errors].
        unfold genesis_error. destruct Ea as [-> | ->]; split; auto; discriminate. }
  destruct (genesis_read_account j) as [acc|e] eqn:Er; cbn [rbind].
  2:{ right. split.
      - intros q H. apply Forall2_cons_inv_l in H as (x & q' & [_ H1 H2 H3 _] & _). cbn [snd] in *.
        assert (H : genesis_read_account j = Ok (en_account x)) by by apply read_account_iff. congruence.
      - exists e. split; [done|]. apply read_account_error in Er as [Er1 Er2]. split; [done|].
        intros He. exists (h, j). split; [by left|by apply Er2]. }
  destruct (storage_spec (ga_storage j) (set_account s a (Some acc)) a acc)
    as [(q & Hq & s1 & -> & Hput)|[Hq (c & -> & Hc)]]; cbn [rbind].
  { unfold set_account, set_main. cbn [main_trie account_trie_set]. by rewrite lookup_insert. }
  - destruct (IH s1) as [(q' & s' & Hl & -> & Hi)|[Hl (c & -> & Hc & Hb)]].
    + left. exists (Entry a acc q :: q'), s'. split; [|split; [done|by eapply installs_cons]].
      constructor; [|done]. apply C67_reads in Ea. apply read_account_iff in Er as (R1 & R2 & R3). by constructor.
    + right. split.
      * intros q0 H. apply Forall2_cons_inv_l in H as (x & q' & _ & H & _). by apply (Hl q').
      * exists c. split; [done|]. split; [done|]. intros He. destruct (Hb He) as (p & Hp & Hp').
        exists p. split; [by right|done].
  - right. split.
    + intros q H. apply Forall2_cons_inv_l in H as (x & q' & [_ _ _ _ H] & _). by apply (Hq (en_storage x)).
    + exists c. unfold genesis_error. destruct Hc as [-> | ->]; (split; [done|]); split; auto; discriminate.
Qed.
Lemma accounts_at_cons a x l : accounts_at a (x :: l) =
  if decide (en_address x = a) then en_account x :: accounts_at a l else accounts_at a l.
Proof. unfold accounts_at. rewrite filter_cons. by destruct (decide _). Qed.
Lemma accounts_at_nil a l : ~ In a (map en_address l) -> accounts_at a l = [].
Proof.
  induction l as [|x l IH]; [done|]. cbn [map]. intros H. rewrite accounts_at_cons.
  rewrite decide_False by (intros E; apply H; by left). apply IH. intros H'. apply H. by right.
Qed.
Lemma values_at_nil a k l : ~ In a (map en_address l) -> values_at a k l = [].
Proof.
  unfold values_at. induction l as [|x l IH]; [done|]. cbn [map]. intros H. rewrite filter_cons.
  rewrite decide_False by (intros E; apply H; by left). apply IH. intros H'. apply H. by right.
Qed.
Lemma values_at_in x l k : NoDup (map en_address l) -> In x l ->
  accounts_at (en_address x) l = [en_account x] /\
  values_at (en_address x) k l = map snd (filter (fun p => fst p = k) (en_storage x)).
Proof.
  induction l as [|y l IH]; [done|]. cbn [map]. intros [Hn Hd]%NoDup_cons Hx.
  rewrite elem_of_list_In in Hn. rewrite accounts_at_cons. unfold values_at. rewrite filter_cons.
  destruct Hx as [-> |Hx].
  - rewrite !decide_True by done. cbn [map concat]. rewrite filter_app, map_app.
    pose proof (values_at_nil _ k _ Hn) as Hv. unfold values_at in Hv. rewrite Hv, app_nil_r.
    by rewrite accounts_at_nil.
  - assert (en_address y <> en_address x) by (intros E; apply Hn; rewrite E; by apply in_map).
    rewrite !decide_False by done. by apply IH.
Qed.
(** If no two texts mean the same address or slot, the state has the given
    accounts and slots and no others. *)
Theorem C68_distinct q s : installs empty_state q s -> NoDup (map en_address q) ->
  (forall x, In x q -> NoDup (map fst (en_storage x))) ->
  (forall a acc, get_account_optional s a = Some acc <-> exists x, In x q /\ en_address x = a /\ en_account x = acc) /\
  (forall a k v, v <> 0 -> get_storage s a k = v <-> exists x, In x q /\ en_address x = a /\ In (k, v) (en_storage x)) /\
  total_balance s = PropWithdrawals.sumN (map (fun x => balance (en_account x)) q).
Proof.
  intros [I1 I2 _ _] Hd Hs. split; [|split].
  - intros a acc. rewrite I1. split.
    + intros H. destruct (In_dec N.eq_dec a (map en_address q)) as [Hin|Hin].
      * apply in_map_iff in Hin as (x & <- & Hx). exists x. split; [done|]. split; [done|].
        destruct (values_at_in x q 0 Hd Hx) as [E _]. rewrite E in H. by injection H as <-.
      * by rewrite accounts_at_nil in H.
    + intros (x & Hx & <- & <-). by rewrite (proj1 (values_at_in x q 0 Hd Hx)).
  - intros a k v Hv. rewrite I2. split.
    + intros H. destruct (In_dec N.eq_dec a (map en_address q)) as [Hin|Hin].
      * apply in_map_iff in Hin as (x & <- & Hx). exists x. split; [done|]. split; [done|].
        destruct (values_at_in x q k Hd Hx) as [_ E]. rewrite E in H.
        destruct (last _) as [v'|] eqn:El; [subst v'|by subst v].
        apply last_Some in El as [l' El]. assert (Hin : In v (map snd (filter (fun p => fst p = k) (en_storage x)))).
        { rewrite El. apply in_app_iff. right. by left. }
        apply in_map_iff in Hin as ([k' v'] & Ev & Hin). cbn [snd] in Ev. subst v'.
        apply elem_of_list_In, elem_of_list_filter in Hin as [Hk Hin]. cbn [fst] in Hk. subst k'.
        by apply elem_of_list_In.
      * rewrite values_at_nil in H by done. by subst v.
    + intros (x & Hx & <- & Hin). rewrite (proj2 (values_at_in x q k Hd Hx)).
      specialize (Hs x Hx). revert Hs Hin. generalize (en_storage x). clear. intros l.
      induction l as [|[k' v'] l IH]; [done|]. cbn [map fst]. intros [Hn Hd]%NoDup_cons Hin.
      rewrite filter_cons. cbn [fst]. destruct Hin as [[= -> ->]|Hin].
      * rewrite decide_True by done. cbn [map snd].
        assert (filter (fun p : N * N => fst p = k) l = []) as ->; [|done].
        destruct (filter _ l) as [|[k' v'] l'] eqn:E; [done|]. exfalso. apply Hn.
        assert (H : (k', v') ∈ filter (fun p : N * N => fst p = k) l) by (rewrite E; left).
        apply elem_of_list_filter in H as [H1 H2]. cbn [fst] in H1. subst k'.
        apply elem_of_list_fmap. by exists (k, v').
      * rewrite decide_False; [by apply IH|]. intros ->. apply Hn. apply elem_of_list_fmap. exists (k, v).
        split; [done|]. by apply elem_of_list_In.
  - assert (G : forall q m, NoDup (map en_address q) -> (forall x, In x q -> m !! en_address x = None) ->
      forall s, (forall a, main_trie s !! a = match last (accounts_at a q) with Some acc => Some acc | None => m !! a end) ->
      total_balance s = total_balance (State m ∅ [] ∅) + PropWithdrawals.sumN (map (fun x => balance (en_account x)) q)).
    { clear. induction q as [|x q IH]; intros m Hd Hm s Hs.
      - cbn. rewrite N.add_0_r. assert (main_trie s = m) as E by (apply map_eq; intros a; by rewrite Hs).
        unfold total_balance. by rewrite E.
      - cbn [map] in Hd. apply NoDup_cons in Hd as [Hn Hd]. rewrite elem_of_list_In in Hn.
        rewrite (IH (<[en_address x := en_account x]> m)); [|done|..].
        + pose proof (total_set_account (State m ∅ [] ∅) (en_address x) (Some (en_account x))) as E.
          assert (H0 : balance (get_account (State m ∅ [] ∅) (en_address x)) = 0).
          { unfold get_account, get_account_optional. cbn [main_trie]. rewrite Hm by by left. done. }
          rewrite H0 in E. change (bal_opt (Some (en_account x))) with (balance (en_account x)) in E.
          unfold set_account, set_main in E. cbn [main_trie account_trie_set storage_tries snapshots created_accounts] in E.
          cbn [map PropWithdrawals.sumN fold_right]. unfold PropWithdrawals.sumN. cbn [fold_right]. lia.
        + intros y Hy. rewrite lookup_insert_ne; [apply Hm; by right|]. intros E. apply Hn. rewrite E. by apply in_map.
        + intros a. rewrite Hs, accounts_at_cons. destruct (decide (en_address x = a)) as [<-|Hne].
          * rewrite accounts_at_nil by done. by rewrite lookup_insert.
          * by rewrite lookup_insert_ne by done. }
    specialize (G q ∅ Hd (fun _ _ => lookup_empty _) s). rewrite G; [|done]. done.
Qed.

(** ** The block *)
Section Block.
  Context (cr : crypto).

  Lemma empty_root_value : empty_root cr = Ok (keccak256 cr [Byte.x80]).
  Proof. reflexivity. Qed.
  Lemma genesis_root_done s : snapshots s = [] ->
    exists r, state_root cr s = Some r /\ genesis_state_root cr s = Ok r.
  Proof.
    intros H. destruct (state_root_done cr s H) as [r Hr]. exists r. split; [done|].
    unfold genesis_state_root. by rewrite Hr.
  Qed.

  Theorem C68_block f c g : snapshots (bc_state c) = [] ->
    (exists q s r, Forall2 declares (g_initial_accounts g) q /\ installs (bc_state c) q s /\
       state_root cr s = Some r /\
       add_genesis_block cr f c g = Ok (BlockChain (bc_blocks c ++ [Block {|
           h_fork := f;
           h_parent_hash := repeat Byte.x00 32;
           h_ommers_hash := keccak256 cr [Byte.xc0];
           h_coinbase := 0;
           h_state_root := r;
           h_transactions_root := keccak256 cr [Byte.x80];
           h_receipt_root := keccak256 cr [Byte.x80];
           h_bloom := repeat Byte.x00 256;
           h_difficulty := g_difficulty g;
           h_number := 0;
           h_gas_limit := g_gas_limit g;
           h_gas_used := 0;
           h_timestamp := g_timestamp g;
           h_extra_data := g_extra_data g;
           h_prev_randao := 0;
           h_nonce := g_nonce g;
           h_base_fee_per_gas := 1000000000;
           h_withdrawals_root := keccak256 cr [Byte.x80];
           h_blob_gas_used := 0;
           h_excess_blob_gas := 0;
           h_parent_beacon_block_root := 0;
           h_requests_hash := repeat Byte.x00 32 |} [] [] []]) s (g_chain_id g))) \/
    ((forall q, ~ Forall2 declares (g_initial_accounts g) q) /\
     exists e, add_genesis_block cr f c g = Raise e /\ genesis_error e).
  Proof.
    intros Hsn. unfold add_genesis_block.
    destruct (C68_state (bc_state c) (g_initial_accounts g)) as [(q & s & Hq & -> & Hi)|[Hq (e & -> & He & _)]];
      cbn [rbind]; [left|right; split; [done|by exists e]].
    destruct (genesis_root_done s) as (r & Hr & ->); [by rewrite (in_snapshots _ _ _ Hi)|].
    exists q, s, r. split; [done|]. split; [done|]. split; [done|]. reflexivity.
  Qed.

  Theorem C68_pow_block {tx} f (c : Pow.pow_chain tx) g : snapshots (Pow.pc_state c) = [] ->
    (exists q s r, Forall2 declares (g_initial_accounts g) q /\ installs (Pow.pc_state c) q s /\
       state_root cr s = Some r /\
       pow_add_genesis_block cr f c g = Ok (Pow.PowChain (Pow.pc_blocks c ++ [Pow.PowBlock {|
           Pow.ph_parent_hash := repeat Byte.x00 32;
           Pow.ph_ommers_hash := keccak256 cr [Byte.xc0];
           Pow.ph_coinbase := 0;
           Pow.ph_state_root := r;
           Pow.ph_transactions_root := keccak256 cr [Byte.x80];
           Pow.ph_receipt_root := keccak256 cr [Byte.x80];
           Pow.ph_bloom := repeat Byte.x00 256;
           Pow.ph_difficulty := g_difficulty g;
           Pow.ph_number := 0;
           Pow.ph_gas_limit := g_gas_limit g;
           Pow.ph_gas_used := 0;
           Pow.ph_timestamp := g_timestamp g;
           Pow.ph_extra_data := g_extra_data g;
           Pow.ph_mix_digest := repeat Byte.x00 32;
           Pow.ph_nonce := g_nonce g;
           Pow.ph_base_fee_per_gas := if Pow.pf_base_fee f then Some 1000000000 else None |} [] []]) s
         (g_chain_id g))) \/
    ((forall q, ~ Forall2 declares (g_initial_accounts g) q) /\
     exists e, pow_add_genesis_block cr f c g = Raise e /\ genesis_error e).
  Proof.
    intros Hsn. unfold pow_add_genesis_block.
    destruct (C68_state (Pow.pc_state c) (g_initial_accounts g)) as [(q & s & Hq & -> & Hi)|[Hq (e & -> & He & _)]];
      cbn [rbind]; [left|right; split; [done|by exists e]].
    destruct (genesis_root_done s) as (r & Hr & ->); [by rewrite (in_snapshots _ _ _ Hi)|].
    exists q, s, r. split; [done|]. split; [done|]. split; [done|]. reflexivity.
  Qed.
  (** On top of it the theorems about chains hold. *)
  Theorem C68_pow_start {tx} f g (c : Pow.pow_chain tx) id :
    pow_add_genesis_block cr f (Pow.PowChain [] empty_state id) g = Ok c -> g_timestamp g + 13 < 2 ^ 256 ->
    PropPow.consecutive (Pow.pc_blocks c) /\ lenN (Pow.pc_blocks c) = 1 /\
    (forall b o, In b (Pow.pc_blocks c) -> ~ In o (Pow.pb_ommers b)) /\
    forall h, (Pow.pf_base_fee f = true -> Pow.ph_base_fee_per_gas h <> None) -> PropPow.well_typed f c h.
  Proof.
    intros H Ht. destruct (@C68_pow_block tx f (Pow.PowChain [] empty_state id) g)
      as [(q & s & r & _ & _ & _ & E)|[_ (e & E & _)]]; [done| |congruence].
    rewrite E in H. injection H as <-. cbn [Pow.pc_blocks app]. split; [|split; [done|split]].
    - intros i b1 b2 _ H2. by destruct i as [|[|i]].
    - intros b o [<-|[]]. cbn. tauto.
    - intros h Hh. split; [done|]. intros b [<-|[]] _. cbn [Pow.pb_header Pow.ph_base_fee_per_gas Pow.ph_timestamp].
      split; [|done]. intros ->. done.
  Qed.

  (** Accounts with code or storage have a nonce or code that is no delegation. *)
  Definition anchors (x : entry) : Prop :=
    code (en_account x) <> [] \/ (exists k v, In (k, v) (en_storage x) /\ v <> 0) ->
    nonce (en_account x) <> 0 \/
    (code (en_account x) <> [] /\
     ~ exists d, code (en_account x) = [Byte.xef; Byte.x01; Byte.x00] ++ d /\ length d = 20%nat).
  (** After any blocks on top of the first one, the next block is accepted or
      turned down (or, before Osaka, ends in an OverflowError). *)
  Theorem C68_chain f g c0 q c l b id : digests cr ->
    add_genesis_block cr f (BlockChain [] empty_state id) g = Ok c0 ->
    Forall2 declares (g_initial_accounts g) q ->
    NoDup (map en_address q) -> (forall x, In x q -> NoDup (map fst (en_storage x))) ->
    (forall x, In x q -> anchors x /\ lenN (code (en_account x)) < 2 ^ 256) ->
    g_chain_id g < 2 ^ 64 -> g_gas_limit g < 2 ^ 255 ->
    accepted cr c0 c l -> Forall (fun x => block_typed x /\ roomy (bl_header x)) l -> block_typed b ->
    PropWithdrawals.sumN (map (fun x => balance (en_account x)) q) +
      10 ^ 9 * PropWithdrawals.sumN (map wd_amount (concat (map bl_withdrawals (l ++ [b])))) < 2 ^ 256 ->
    (exists c', state_transition cr c b = (Done tt, c')) \/
    (exists e c', state_transition cr c b = (Fail e, c') /\
       (turned_down (h_fork (bl_header b)) e (bl_transactions b) \/ overflows (h_fork (bl_header b)) e)).
  Proof.
    intros HD Hg Hq Hd Hk Ha Hid Hgl Hacc Hl Hb Hsum.
    destruct (C68_block f (BlockChain [] empty_state id) g) as [(q' & s & r & Hq' & Hi & Hr & E)|[_ (e & E & _)]];
      [done| |congruence].
    assert (q' = q) as ->.
    { clear -Hq Hq'. revert q q' Hq Hq'. induction (g_initial_accounts g) as [|p l IH]; intros q q' H H'.
      - apply Forall2_nil_inv_l in H, H'. congruence.
      - apply Forall2_cons_inv_l in H as (x & q1 & Hx & H & ->).
        apply Forall2_cons_inv_l in H' as (x' & q1' & Hx' & H' & ->). f_equal; [|by eapply IH].
        clear -Hx Hx'. destruct x as [a acc st], x' as [a' acc' st'], Hx as [D1 D2 D3 D4 D5], Hx' as [E1 E2 E3 E4 E5].
        cbn [en_address en_account en_storage] in *.
        assert (a = a') as <- by (apply C67_reads in D1, E1; congruence).
        assert (acc = acc') as <-.
        { assert (H1 : genesis_read_account (snd p) = Ok acc) by by apply read_account_iff.
          assert (H2 : genesis_read_account (snd p) = Ok acc') by by apply read_account_iff. congruence. }
        f_equal. clear -D5 E5. revert st st' D5 E5. induction (ga_storage (snd p)) as [|y m IH]; intros st st' H H'.
        + apply Forall2_nil_inv_l in H, H'. congruence.
        + apply Forall2_cons_inv_l in H as ([k v] & q1 & Hx & H & ->).
          apply Forall2_cons_inv_l in H' as ([k' v'] & q1' & Hx' & H' & ->). f_equal; [|by eapply IH].
          cbn [fst snd] in Hx, Hx'.
          destruct Hx as [(kb & Hx1 & ->) Hx2], Hx' as [(kb' & Hx1' & ->) Hx2'].
          apply C67_reads in Hx1, Hx1', Hx2, Hx2'. congruence. }
    rewrite E in Hg. injection Hg as <-.
    destruct (C68_distinct q s Hi Hd Hk) as (D1 & D2 & D3).
    assert (Hfirm : forall x, In x q -> code (en_account x) <> [] \/ (exists k v, In (k, v) (en_storage x) /\ v <> 0) ->
      firm s (en_address x)).
    { intros x Hx Hc. destruct (proj1 (Ha x Hx) Hc) as [H|[H1 H2]].
      - left. unfold get_account. rewrite (proj2 (D1 _ (en_account x))); [done|]. by exists x.
      - right. unfold has_real_code, get_account. rewrite (proj2 (D1 _ (en_account x))); [done|]. by exists x. }
    assert (Hget : forall a, get_account s a = EMPTY_ACCOUNT \/ exists x, In x q /\ en_address x = a /\ en_account x = get_account s a).
    { intros a. unfold get_account. destruct (get_account_optional s a) as [acc|] eqn:Ea; [right|by left].
      by apply D1. }
    eapply C59_chain; [exact HD|exact Hacc|..|exact Hl|exact Hb|].
    - constructor; cbn [bc_state bc_chain_id bc_blocks app].
      + apply good_intro.
        * split; [by rewrite (in_snapshots _ _ _ Hi)|by rewrite (in_created _ _ _ Hi)].
        * split.
          -- intros a k Hv. destruct (proj1 (D2 a k _ Hv) eq_refl) as (x & Hx & <- & Hin). apply Hfirm; [done|].
             right. by exists k, (get_storage s (en_address x) k).
          -- intros a Hc. destruct (Hget a) as [H|(x & Hx & <- & H)]; [by rewrite H in Hc|].
             apply Hfirm; [done|]. left. by rewrite H.
        * rewrite D3. clear -Hsum. lia.
        * intros a. destruct (Hget a) as [-> |(x & Hx & _ & <-)]; [done|]. by apply Ha.
        * intros a k. destruct (decide (get_storage s a k = 0)) as [-> |Hv]; [done|].
          destruct (proj1 (D2 a k _ Hv) eq_refl) as (x & Hx & <- & Hin).
          assert (Hst : Forall (fun x => Forall (fun p => snd p < 2 ^ 256) (en_storage x)) q).
          { clear -Hq'. induction Hq' as [|p x l q [_ _ _ _ H] _ IH]; constructor; [|done].
            clear -H. induction H as [|y z m n [_ [_ H]] _ IH]; by constructor. }
          rewrite List.Forall_forall in Hst. specialize (Hst x Hx). rewrite List.Forall_forall in Hst.
          by apply (Hst (k, get_storage s (en_address x) k)).
      + done.
      + eexists. split; [reflexivity|]. cbn [bl_header h_number h_gas_used h_gas_limit]. split; [done|clear; lia].
      + constructor; [done|constructor].
    - intros p [= <-]. constructor; cbn [bl_header h_number h_gas_limit h_base_fee_per_gas h_excess_blob_gas h_blob_gas_used]; done.
    - cbn [bc_state]. rewrite D3. exact Hsum.
  Qed.
End Block.

(** ** Where it goes wrong *)
(** An account without a balance is meant to have none, but raises an
    AttributeError; a nonce in hexadecimal raises a ValueError. *)
Theorem C68_balance_refuted :
  genesis_state empty_state [(text "0x01", GenesisAccount None None None [])] = Raise AttributeError.
Proof. reflexivity. Qed.
Theorem C68_nonce_refuted :
  genesis_state empty_state [(text "0x01", GenesisAccount (Some (text "0x1")) (Some (text "0x0")) None [])]
  = Raise ValueError.
Proof. reflexivity. Qed.
(** The header of a Prague or Osaka genesis block has not the hash of no requests. *)
Theorem C68_requests_refuted cr f c g c' b : sha256_digest cr [] <> repeat Byte.x00 32 ->
  add_genesis_block cr f c g = Ok c' -> last (bc_blocks c') = Some b ->
  h_requests_hash (bl_header b) <> compute_requests_hash cr [].
Proof.
  intros Hs H Hl. unfold add_genesis_block in H.
  destruct (genesis_state _ _) as [s|]; [|done]. cbn [rbind] in H.
  destruct (genesis_state_root cr s) as [r|]; [|done]. cbn [rbind] in H.
  rewrite empty_root_value in H. cbn [rbind] in H. injection H as <-. cbn [bc_blocks] in Hl.
  rewrite last_snoc in Hl. injection Hl as <-. cbn [bl_header h_requests_hash]. intros E. apply Hs. exact (eq_sym E).
Qed.

(** ** Example: Sepolia *)
(** src/ethereum/assets/sepolia.json *)
Definition sepolia_account (balance : string) : genesis_account :=
  GenesisAccount None (Some (text balance)) None [].
Definition sepolia : genesis_json := GenesisJson 11155111 (text "0x20000")
  (text "0x5365706f6c69612c20417468656e732c204174746963612c2047726565636521")
  (text "0x1c9c380") (text "0x000000000000000") (text "0x6159af19")
  [(text "0xa2A6d93439144FFE4D27c9E088dCD8b783946263", sepolia_account "0xD3C21BCECCEDA1000000");
   (text "0xBc11295936Aa79d594139de1B2e12629414F3BDB", sepolia_account "0xD3C21BCECCEDA1000000");
   (text "0x7cF5b79bfe291A67AB02b393E456cCc4c266F753", sepolia_account "0xD3C21BCECCEDA1000000");
   (text "0xaaec86394441f915bce3e6ab399977e9906f3b69", sepolia_account "0xD3C21BCECCEDA1000000");
   (text "0xF47CaE1CF79ca6758Bfc787dbD21E6bdBe7112B8", sepolia_account "0xD3C21BCECCEDA1000000");
   (text "0xd7eDDB78ED295B3C9629240E8924fb8D8874ddD8", sepolia_account "0xD3C21BCECCEDA1000000");
   (text "0x8b7F0977Bb4f0fBE7076FA22bC24acA043583F5e", sepolia_account "0xD3C21BCECCEDA1000000");
   (text "0xe2e2659028143784d557bcec6ff3a0721048880a", sepolia_account "0xD3C21BCECCEDA1000000");
   (text "0xd9a5179f091d85051d3c982785efd1455cec8699", sepolia_account "0xD3C21BCECCEDA1000000");
   (text "0xbeef32ca5b9a198d27B4e02F4c70439fE60356Cf", sepolia_account "0xD3C21BCECCEDA1000000");
   (text "0x0000006916a87b82333f4245046623b23794c65c", sepolia_account "0x84595161401484A000000");
   (text "0xb21c33de1fab3fa15499c62b59fe0cc3250020d1", sepolia_account "0x52B7D2DCC80CD2E4000000");
   (text "0x10F5d45854e038071485AC9e402308cF80D2d2fE", sepolia_account "0x52B7D2DCC80CD2E4000000");
   (text "0xd7d76c58b3a519e9fA6Cc4D22dC017259BC49F1E", sepolia_account "0x52B7D2DCC80CD2E4000000");
   (text "0x799D329e5f583419167cD722962485926E338F4a", sepolia_account "0xDE0B6B3A7640000")].
Definition sepolia_configuration : genesis_configuration := GenesisConfiguration 11155111 0x20000
  (map byte_of_N [83; 101; 112; 111; 108; 105; 97; 44; 32; 65; 116; 104; 101; 110; 115; 44; 32; 65; 116; 116; 105; 99; 97; 44; 32; 71; 114; 101; 101; 99; 101; 33])
  30000000 (map byte_of_N [0; 0; 0; 0; 0; 0; 0; 0]) 1633267481 (gj_alloc sepolia).
Definition sepolia_entries : list entry :=
  map (fun p => Entry (fst p) (Account 0 (snd p) []) [])
  [(0xa2A6d93439144FFE4D27c9E088dCD8b783946263, 1000000000000000000000000);
   (0xBc11295936Aa79d594139de1B2e12629414F3BDB, 1000000000000000000000000);
   (0x7cF5b79bfe291A67AB02b393E456cCc4c266F753, 1000000000000000000000000);
   (0xaaec86394441f915bce3e6ab399977e9906f3b69, 1000000000000000000000000);
   (0xF47CaE1CF79ca6758Bfc787dbD21E6bdBe7112B8, 1000000000000000000000000);
   (0xd7eDDB78ED295B3C9629240E8924fb8D8874ddD8, 1000000000000000000000000);
   (0x8b7F0977Bb4f0fBE7076FA22bC24acA043583F5e, 1000000000000000000000000);
   (0xe2e2659028143784d557bcec6ff3a0721048880a, 1000000000000000000000000);
   (0xd9a5179f091d85051d3c982785efd1455cec8699, 1000000000000000000000000);
   (0xbeef32ca5b9a198d27B4e02F4c70439fE60356Cf, 1000000000000000000000000);
   (0x0000006916a87b82333f4245046623b23794c65c, 10000000000000000000000000);
   (0xb21c33de1fab3fa15499c62b59fe0cc3250020d1, 100000000000000000000000000);
   (0x10F5d45854e038071485AC9e402308cF80D2d2fE, 100000000000000000000000000);
   (0xd7d76c58b3a519e9fA6Cc4D22dC017259BC49F1E, 100000000000000000000000000);
   (0x799D329e5f583419167cD722962485926E338F4a, 1000000000000000000)].
Lemma address_read s a : hex_to_address s = Ok a -> hex_word 20 s a.
Proof. apply C67_reads. Qed.
Lemma bytes_read s b : hex_to_bytes s = Ok b -> hex_bytes s b.
Proof. apply C67_reads. Qed.
Example C68_nonvacuous :
  get_genesis_configuration sepolia = Ok sepolia_configuration /\
  Forall2 declares (g_initial_accounts sepolia_configuration) sepolia_entries /\
  NoDup (map en_address sepolia_entries) /\
  PropWithdrawals.sumN (map (fun x => balance (en_account x)) sepolia_entries) < 2 ^ 256 /\
  (forall x, In x sepolia_entries -> NoDup (map fst (en_storage x)) /\ anchors x /\ lenN (code (en_account x)) < 2 ^ 256) /\
  (exists c0, add_genesis_block ex_crypto Osaka (BlockChain [] empty_state 0) sepolia_configuration = Ok c0 /\
     accepted ex_crypto c0 c0 []) /\
  (exists c0, pow_add_genesis_block (tx := unit) ex_crypto Pow.london (Pow.PowChain [] empty_state 0)
     sepolia_configuration = Ok c0) /\
  g_timestamp sepolia_configuration + 13 < 2 ^ 256.
Proof.
  assert (Hq : Forall2 declares (g_initial_accounts sepolia_configuration) sepolia_entries).
  { unfold sepolia_entries, sepolia_configuration, g_initial_accounts, sepolia, gj_alloc. cbn [map fst snd].
    repeat (constructor; [constructor; cbn [fst snd en_address en_account en_storage ga_nonce ga_balance ga_code
      ga_storage sepolia_account nonce balance code];
      [apply address_read; reflexivity|apply nonce_iff; reflexivity|
       eexists; split; [reflexivity|]; apply number_iff; reflexivity|
       apply bytes_read; reflexivity|constructor]|]). constructor. }
  split; [reflexivity|]. split; [exact Hq|]. split; [|split; [|split; [|split; [|split]]]].
  - apply (bool_decide_unpack _). reflexivity.
  - reflexivity.
  - intros x Hx. unfold sepolia_entries in Hx. apply in_map_iff in Hx as (p & <- & _).
    split; [constructor|]. split; [|done]. cbn. intros [H|(k & v & [] & _)]. done.
  - destruct (C68_block ex_crypto Osaka (BlockChain [] empty_state 0) sepolia_configuration)
      as [(q & s & r & _ & _ & _ & H)|[H _]]; [done| |by destruct (H _ Hq)].
    eexists. split; [exact H|constructor].
  - destruct (C68_pow_block (tx := unit) ex_crypto Pow.london (Pow.PowChain [] empty_state 0) sepolia_configuration)
      as [(q & s & r & _ & _ & _ & H)|[H _]]; [done| |by destruct (H _ Hq)].
    eexists. exact H.
  - reflexivity.
Qed.
(** Slots: the text that comes last decides. *)
Example C68_nonvacuous_storage :
  (s <-- genesis_state empty_state
    [(text "0x01", GenesisAccount (Some (text "7")) (Some (text "5")) (Some (text "0x6001"))
       [(text "0x2", text "0x3"); (text "0x02", text "0x4"); (text "0x05", text "0x6")]);
     (text "0x1", GenesisAccount None (Some (text "0x10")) None [(text "0x05", text "0x0")])] ;;
   Ok (get_account s 1, get_storage s 1 2, get_storage s 1 5, get_account_optional s 2))
  = Ok (Account 0 16 [], 4, 0, None).
Proof. vm_compute. reflexivity. Qed.

Definition PropGenesis_theorems :=
  (@C68_configuration, @C68_state, @C68_distinct, @C68_block, @C68_pow_block, @C68_pow_start, @C68_chain,
   @C68_balance_refuted, @C68_nonce_refuted, @C68_requests_refuted).
Print Assumptions PropGenesis_theorems.
