(** * PropTrie: properties C24 (compact encoding), C25 (the root depends on
    the mapping only), C26 (the root commits to the mapping) and C27 (the
    state root commits to accounts and storage). *)
From Verif Require Import Base State Rlp Vm StateSpec StateProofs NumericProofs RlpProofs Trie
  TrieProofs EvmExamples.
From Coq Require Import ZifyBool ZifyN ZifyNat.
Ltac Zify.zify_post_hook ::= idtac.

(** ** C24 *)

(** The compact form determines the nibbles and the flag, and packs two
    nibbles per byte. *)
Theorem C24_compact_injective x y leaf leaf' :
  Forall (fun n => n < 16) x -> Forall (fun n => n < 16) y ->
  nibble_list_to_compact x leaf = nibble_list_to_compact y leaf' -> x = y /\ leaf = leaf'.
Proof. apply compact_inj. Qed.

Theorem C24_compact_length x leaf :
  lenN (nibble_list_to_compact x leaf) = lenN x / 2 + 1.
Proof. apply compact_len. Qed.

(** The whole content of the compact form, read back: the first byte carries
    the flags (0x20 for a leaf, 0x10 for an odd number of nibbles), and the
    nibbles are the remaining half-bytes. *)
Fixpoint half_bytes (b : bytes) : list N :=
  match b with
  | [] => []
  | x :: r => Byte.to_N x / 16 :: Byte.to_N x mod 16 :: half_bytes r
  end.
Theorem C24_compact_decodes x leaf : Forall (fun n => n < 16) x ->
  exists first rest, nibble_list_to_compact x leaf = first :: rest /\
  (Byte.to_N first / 32 = if leaf then 1 else 0) /\
  (Byte.to_N first / 16) mod 2 = lenN x mod 2 /\
  x = (if lenN x mod 2 =? 0 then half_bytes rest else Byte.to_N first mod 16 :: half_bytes rest).
Proof.
  intros Hx.
  assert (Hhalf : forall a b, a < 16 -> b < 16 ->
    Byte.to_N (byte_of_N (16 * a + b)) / 16 = a /\ Byte.to_N (byte_of_N (16 * a + b)) mod 16 = b).
  { intros a b Ha Hb. rewrite byte_of_N_to_N by lia. split.
    - symmetry. apply (N.div_unique _ _ _ b); lia.
    - symmetry. apply (N.mod_unique _ _ a); lia. }
  assert (Hpack : forall y, Forall nibble y -> lenN y mod 2 = 0 -> half_bytes (pack_nibbles y) = y).
  { clear x Hx. induction y as [|a|a b y IH] using list_ind2; intros Hy Ey; [done|done|].
    inversion_clear Hy as [|? ? Ha Hy']. inversion_clear Hy' as [|? ? Hb Hy].
    cbn [pack_nibbles half_bytes]. destruct (Hhalf a b Ha Hb) as [-> ->]. rewrite IH; [done|done|].
    rewrite !lenN_cons in Ey. replace (1 + (1 + lenN y)) with (lenN y + 1 * 2) in Ey by lia.
    by rewrite N.mod_add in Ey by lia. }
  assert (H32 : forall n, n / 32 = n / 16 / 2).
  { intros n. rewrite N.div_div by lia. done. }
  destruct (compact_cases x leaf Hx) as [[E ->]|(x0 & r & -> & H0 & Hr & Er & ->)].
  - eexists _, _. split; [reflexivity|]. rewrite E, H32.
    destruct (Hhalf (2 * N.b2n leaf) 0) as [-> _]; [destruct leaf; cbn; lia|lia|].
    refine (conj _ (conj _ _)); [by destruct leaf|by destruct leaf|]. cbn. by rewrite Hpack.
  - eexists _, _. split; [reflexivity|]. rewrite H32, lenN_cons, mod2_succ, Er.
    destruct (Hhalf (2 * N.b2n leaf + 1) x0) as [-> ->]; [destruct leaf; cbn; lia|done|].
    refine (conj _ (conj _ _)); [by destruct leaf|by destruct leaf|]. cbn. by rewrite Hpack.
Qed.

Theorem C24_nibbles b :
  bytes_to_nibble_list b = half_bytes b /\
  Forall (fun n => n < 16) (bytes_to_nibble_list b) /\
  lenN (bytes_to_nibble_list b) = 2 * lenN b /\
  forall b', bytes_to_nibble_list b = bytes_to_nibble_list b' -> b = b'.
Proof.
  refine (conj _ (conj (nibble_list_nibbles b) (conj _ _))).
  - induction b as [|x b IH]; [done|]. cbn [bytes_to_nibble_list half_bytes]. rewrite IH.
    destruct (nibble_list_value x) as (h & l & Hh & Hl & -> & -> & ->). f_equal; [|f_equal].
    + apply (N.div_unique _ _ _ l); lia.
    + apply (N.mod_unique _ _ h); lia.
  - unfold lenN. rewrite nibble_list_len. lia.
  - apply nibble_list_inj.
Qed.

Example C24_nonvacuous :
  nibble_list_to_compact [1; 2; 3] true = [Byte.x31; Byte.x23] /\
  nibble_list_to_compact [1; 2] true = [Byte.x20; Byte.x12] /\
  nibble_list_to_compact [1; 2; 3] false = [Byte.x11; Byte.x23] /\
  nibble_list_to_compact [] false = [Byte.x00] /\
  bytes_to_nibble_list [Byte.xab; Byte.x0c] = [10; 11; 0; 12].
Proof. vm_compute. repeat split. Qed.

Section Tries.
  Context (cr : crypto).

  (** ** Tries as built by the specification: any sequence of [trie_set] *)
  Section Build.
    Context {V : Type} `{EqDecision V}.
    Definition build (secured : bool) (dflt : V) (ops : list (bytes * V)) : trie V :=
      fold_left (fun t '(k, v) => trie_set t k v) ops (Trie secured dflt []).

    (** Well-formed: distinct keys, no stored default. *)
    Definition trie_ok (t : trie V) : Prop :=
      NoDup (map fst (t_data t)) /\ forall k, dict_get (t_data t) k <> Some (t_default t).

    Lemma trie_set_ok t k v : trie_ok t -> trie_ok (trie_set t k v) /\
      t_secured (trie_set t k v) = t_secured t /\ t_default (trie_set t k v) = t_default t.
    Proof.
      intros [HN HD]. unfold trie_set. destruct (decide (v = t_default t)) as [->|Hv];
        (refine (conj (conj _ _) (conj _ _)); [..|done|done]); cbn [t_data t_default].
      - by apply NoDup_del.
      - intros k'. rewrite dict_get_del by done. destruct (decide (k = k')); [done|apply HD].
      - by apply NoDup_set.
      - intros k'. rewrite dict_get_set. destruct (decide (k = k')); [congruence|apply HD].
    Qed.

    Lemma build_ok secured dflt ops : trie_ok (build secured dflt ops) /\
      t_secured (build secured dflt ops) = secured /\ t_default (build secured dflt ops) = dflt.
    Proof.
      unfold build. assert (G : forall t, trie_ok t -> t_secured t = secured -> t_default t = dflt ->
        let t' := fold_left (fun t '(k, v) => trie_set t k v) ops t in
        trie_ok t' /\ t_secured t' = secured /\ t_default t' = dflt).
      { induction ops as [|[k v] ops IH]; intros t Ht Hs Hd; cbn [fold_left]; [done|].
        destruct (trie_set_ok t k v Ht) as (H1 & H2 & H3). apply IH; congruence. }
      apply G; [|done|done]. split; [apply NoDup_nil_2|done].
    Qed.

    Lemma trie_get_set t k v k' : trie_ok t ->
      trie_get (trie_set t k v) k' = if decide (k = k') then v else trie_get t k'.
    Proof.
      intros [HN _]. unfold trie_get, trie_set. destruct (decide (v = t_default t)) as [->|Hv];
        cbn [t_data t_default]; [rewrite dict_get_del by done|rewrite dict_get_set];
        by destruct (decide (k = k')).
    Qed.

    (** Reading back: the last value set, or the default. *)
    Theorem C25_reads secured dflt ops k v k' :
      trie_get (build secured dflt (ops ++ [(k, v)])) k'
      = (if decide (k = k') then v else trie_get (build secured dflt ops) k') /\
      trie_get (build secured dflt []) k' = dflt.
    Proof.
      split; [|done]. unfold build at 1. rewrite fold_left_app. cbn [fold_left].
      apply trie_get_set. apply build_ok.
    Qed.
  End Build.

  (** ** What is hashed *)

  (** The nibble form of the key under which a trie files [k]. *)
  Definition filed {V} (t : trie V) (k : bytes) : list N :=
    half_bytes (if t_secured t then keccak256 cr k else k).

  (** [M] is the mapping that the trie is the Patricia tree of. *)
  Definition files {V} (enc : bytes -> V -> bytes) (t : trie V) (M : mapping) : Prop :=
    forall n e, M n = Some e <->
      exists k v, dict_get (t_data t) k = Some v /\ n = filed t k /\ e = enc k v.

  (** The byte strings whose hash is taken when the root of [t] is computed:
      its keys (if secured), its top node, and the inner nodes of at least 32
      bytes. *)
  Inductive hashes {V} (enc : bytes -> V -> bytes) (t : trie V) : bytes -> Prop :=
  | hashes_key k : t_secured t = true -> dict_get (t_data t) k <> None -> hashes enc t k
  | hashes_node M p x : files enc t M -> Patricia M p -> In x (hashed cr p) -> hashes enc t x.

  (** Two different strings with the same hash. *)
  Definition collides (P : bytes -> Prop) : Prop :=
    exists x y, P x /\ P y /\ x <> y /\ keccak256 cr x = keccak256 cr y.

  Lemma filed_nibbles {V} (t : trie V) k :
    filed t k = bytes_to_nibble_list (if t_secured t then keccak256 cr k else k).
  Proof. unfold filed. symmetry. apply C24_nibbles. Qed.
  Lemma filed_inj {V} (t : trie V) k k' : filed t k = filed t k' ->
    k = k' \/ (t_secured t = true /\ k <> k' /\ keccak256 cr k = keccak256 cr k').
  Proof.
    rewrite !filed_nibbles. intros E%nibble_list_inj.
    destruct (decide (k = k')); [by left|]. destruct (t_secured t); [by right|by left].
  Qed.

  (** Keys either file apart or collide. *)
  Lemma keys_apart {V} (t : trie V) (ks : list bytes) :
    (forall k k', In k ks -> In k' ks -> filed t k = filed t k' -> k = k') \/
    (exists k k', In k ks /\ In k' ks /\ t_secured t = true /\ k <> k' /\
       keccak256 cr k = keccak256 cr k').
  Proof.
    induction ks as [|k ks [IH|(a & b & Ha & Hb & R)]].
    - left. by intros.
    - assert (H : forall l : list bytes, (forall k', In k' l -> filed t k = filed t k' -> k = k') \/
        exists k', In k' l /\ t_secured t = true /\ k <> k' /\ keccak256 cr k = keccak256 cr k').
      { induction l as [|x l [IHl|(y & Hy & R)]].
        - left. by intros.
        - destruct (decide (filed t k = filed t x)) as [E|E].
          + destruct (filed_inj t k x E) as [->|R]; [|right; exists x; split; [by left|done]].
            left. intros k' [<-|Hin]; [done|by apply IHl].
          + left. intros k' [<-|Hin]; [done|by apply IHl].
        - right. exists y. split; [by right|done]. }
      destruct (H ks) as [H1|(k' & Hk & R)].
      + left. intros a b [<-|Ha] [<-|Hb] E; [done|by apply H1|symmetry; by apply H1|by apply IH].
      + right. exists k, k'. split; [by left|]. split; [by right|done].
    - right. exists a, b. split; [by right|]. split; [by right|done].
  Qed.

  Lemma prepare_loop_spec {V} (enc : bytes -> V -> bytes) (t : trie V) : forall data mapped,
    NoDup (map fst data) -> NoDup (map fst mapped) ->
    (forall k k', In k (map fst data) -> In k' (map fst data) -> filed t k = filed t k' -> k = k') ->
    (forall k v, In (k, v) data -> enc k v <> []) ->
    exists m, prepare_loop cr enc (t_secured t) data mapped = Some m /\ NoDup (map fst m) /\
      (forall k v, In (k, v) data -> dict_get m (filed t k) = Some (enc k v)) /\
      (forall n, (forall k, In k (map fst data) -> filed t k <> n) -> dict_get m n = dict_get mapped n).
  Proof.
    induction data as [|[k v] data IH]; intros mapped HN HM Hinj Henc.
    - exists mapped. split; [done|]. split; [done|]. split; [by intros|done].
    - cbn [map fst] in *. apply NoDup_cons in HN as [Hk HN]. cbn [prepare_loop].
      destruct (enc k v) as [|b e] eqn:Ee; [by destruct (Henc k v (or_introl eq_refl))|].
      destruct (IH (dict_set mapped (filed t k) (b :: e))) as (m & Em & Hm & H1 & H2).
      + done.
      + by apply NoDup_set.
      + intros a c Ha Hc. apply Hinj; by right.
      + intros a c Ha. apply Henc. by right.
      + exists m. rewrite filed_nibbles in Em. split; [done|]. split; [done|]. split.
        * intros a c [[= <- <-]|Hin]; [|by apply H1].
          rewrite H2; [rewrite dict_get_set, decide_True by done; by rewrite Ee|].
          intros a Ha E. apply Hk. apply elem_of_list_In.
          assert (a = k) as <- by (apply Hinj; [by right|by left|done]). done.
        * intros n Hn. rewrite H2; [|intros a Ha; apply Hn; by right].
          rewrite dict_get_set, decide_False; [done|]. apply Hn. by left.
  Qed.

  Lemma prepare_none {V} (enc : bytes -> V -> bytes) secured data mapped k v :
    In (k, v) data -> enc k v = [] -> prepare_loop cr enc secured data mapped = None.
  Proof.
    revert mapped. induction data as [|[a c] data IH]; intros mapped; [done|].
    intros [[= -> ->]|Hin] E; cbn [prepare_loop]; [by rewrite E|].
    destruct (enc a c); [done|]. by apply IH.
  Qed.

  Lemma max_key_le (obj : list (list N * bytes)) k v : In (k, v) obj -> (length k <= max_key obj)%nat.
  Proof.
    induction obj as [|[a c] obj IH]; [done|].
    intros [[= -> ->]|Hin]; unfold max_key; cbn [fold_right fst]; [lia|].
    specialize (IH Hin). unfold max_key in IH. lia.
  Qed.

  Context (keccak_32 : forall x, length (keccak256 cr x) = 32%nat).

  Lemma root_spec {V} (enc : bytes -> V -> bytes) (t : trie V) :
    NoDup (map fst (t_data t)) ->
    (forall k k', In k (map fst (t_data t)) -> In k' (map fst (t_data t)) ->
       filed t k = filed t k' -> k = k') ->
    (forall k v, dict_get (t_data t) k = Some v -> enc k v <> []) ->
    exists M p, files enc t M /\ Patricia M p /\
      root cr enc t = Some (keccak256 cr (node_bytes cr p)).
  Proof.
    intros HN Hinj Henc.
    destruct (prepare_loop_spec enc t (t_data t) [] HN) as (m & Em & Hm & H1 & H2).
    { apply NoDup_nil_2. } { done. }
    { intros k v Hin. apply Henc. by apply dict_get_unique. }
    assert (Hfiles : files enc t (dict_get m)).
    { intros n e. split.
      - intros E. destruct (decide (n ∈ map (filed t) (map fst (t_data t)))) as [Hin|Hno];
          rewrite elem_of_list_In in *.
        + apply in_map_iff in Hin as (k & <- & Hk). apply in_map_iff in Hk as ([k' v] & <- & Hk).
          cbn [fst] in *. rewrite (H1 _ _ Hk) in E. injection E as <-. exists k', v.
          split; [by apply dict_get_unique|done].
        + rewrite H2 in E; [done|]. intros k Hk E'. apply Hno. rewrite <- E'. by apply in_map.
      - intros (k & v & Hk & -> & ->). apply H1. by apply dict_get_In. }
    destruct (patricialize_spec cr (S (max_key m)) m []) as (p & Ep & Pp).
    - lia.
    - done.
    - intros k v _. by exists k.
    - intros k v Hin. apply max_key_le in Hin. cbn. lia.
    - intros k v Hin. apply dict_get_unique in Hin; [|done].
      apply Hfiles in Hin as (k' & v' & _ & -> & _). rewrite filed_nibbles. apply nibble_list_nibbles.
    - exists (dict_get m), p. split; [done|]. split; [exact Pp|].
      unfold root, prepare_trie. rewrite Em. change (lenN (@nil N)) with 0 in Ep. rewrite Ep.
      by apply enc_node_root.
  Qed.

  Lemma files_unique {V1 V2} (enc1 : bytes -> V1 -> bytes) (enc2 : bytes -> V2 -> bytes)
      (t1 : trie V1) (t2 : trie V2) M1 M2 :
    t_secured t1 = t_secured t2 ->
    (forall k, (fun v => enc1 k v) <$> dict_get (t_data t1) k = (fun v => enc2 k v) <$> dict_get (t_data t2) k) ->
    files enc1 t1 M1 -> files enc2 t2 M2 -> forall n, M1 n = M2 n.
  Proof.
    intros Hs He F1 F2 n.
    assert (Hf : forall k, filed t1 k = filed t2 k) by (intros; unfold filed; by rewrite Hs).
    destruct (M1 n) as [e|] eqn:E1.
    - apply F1 in E1 as (k & v & Hk & -> & ->). symmetry. apply F2.
      specialize (He k). rewrite Hk in He. cbn in He. destruct (dict_get (t_data t2) k) as [v2|] eqn:E2; [|done].
      injection He as He. exists k, v2. rewrite Hf. done.
    - destruct (M2 n) as [e|] eqn:E2; [|done].
      apply F2 in E2 as (k & v & Hk & -> & ->). specialize (He k). rewrite Hk in He. cbn in He.
      destruct (dict_get (t_data t1) k) as [v1|] eqn:E; [|done]. injection He as He.
      assert (Ex : M1 (filed t2 k) = Some (enc1 k v1)) by (apply F1; exists k, v1; rewrite Hf; done).
      congruence.
  Qed.

  Lemma keys_In {V} (t : trie V) k : In k (map fst (t_data t)) <-> dict_get (t_data t) k <> None.
  Proof.
    rewrite dict_get_None. split; [tauto|]. intros H.
    destruct (decide (k ∈ map fst (t_data t))) as [Hin|Hno]; rewrite elem_of_list_In in *; [done|].
    by destruct H.
  Qed.

  (** ** C25: the root is a function of the mapping *)

  Lemma keys_collide {V} (t : trie V) :
    (forall k k', In k (map fst (t_data t)) -> In k' (map fst (t_data t)) ->
       filed t k = filed t k' -> k = k') \/
    (t_secured t = true /\ collides (fun k => dict_get (t_data t) k <> None)).
  Proof.
    destruct (keys_apart t (map fst (t_data t))) as [A|(k & k' & H1 & H2 & Hs & Hne & E)]; [by left|].
    right. split; [done|]. exists k, k'. apply keys_In in H1, H2. done.
  Qed.

  Lemma root_ext {V} (enc1 enc2 : bytes -> V -> bytes) (t1 t2 : trie V) :
    NoDup (map fst (t_data t1)) -> NoDup (map fst (t_data t2)) ->
    t_secured t1 = t_secured t2 ->
    (forall k, dict_get (t_data t1) k = dict_get (t_data t2) k) ->
    (forall k v, dict_get (t_data t1) k = Some v -> enc1 k v = enc2 k v) ->
    root cr enc1 t1 = root cr enc2 t2 \/
    (t_secured t1 = true /\ collides (fun k => dict_get (t_data t1) k <> None)).
  Proof.
    intros N1 N2 Hs Hdata Hee.
    destruct (keys_collide t1) as [A1|]; [|by right]. left.
    assert (A2 : forall k k', In k (map fst (t_data t2)) -> In k' (map fst (t_data t2)) ->
       filed t2 k = filed t2 k' -> k = k').
    { intros k k'. rewrite !keys_In, <- !Hdata, <- !keys_In. unfold filed.
      rewrite <- Hs. apply A1. }
    assert (Hempty : (forall k v, In (k, v) (t_data t1) -> enc1 k v <> []) \/
      exists k v, In (k, v) (t_data t1) /\ enc1 k v = []).
    { clear. induction (t_data t1) as [|[k v] l [IH|(k' & v' & Hin & E)]]; [left; by intros| |].
      - destruct (enc1 k v) as [|b e] eqn:E; [right; exists k, v; split; [by left|done]|].
        left. intros k' v' [[= <- <-]|Hin]; [congruence|by apply IH].
      - right. exists k', v'. split; [by right|done]. }
    destruct Hempty as [He|(k & v & Hin & He)].
    - destruct (root_spec enc1 t1 N1 A1) as (M1 & p1 & Fi1 & P1 & ->).
      { intros k v Hk. apply He. by apply dict_get_In. }
      destruct (root_spec enc2 t2 N2 A2) as (M2 & p2 & Fi2 & P2 & ->).
      { intros k v Hk. rewrite <- Hdata in Hk. rewrite <- (Hee k v Hk). apply He. by apply dict_get_In. }
      do 3 f_equal. apply (Patricia_unique _ _ P1 M2 p2); [|done].
      apply (files_unique enc1 enc2 t1 t2); [congruence| |done|done].
      intros k. rewrite <- Hdata. destruct (dict_get (t_data t1) k) eqn:E; [|done]. cbn.
      by rewrite (Hee _ _ E).
    - unfold root, prepare_trie. rewrite (prepare_none enc1 _ _ _ _ _ Hin He).
      assert (Hin1 : dict_get (t_data t1) k = Some v) by (by apply dict_get_unique).
      assert (Hin2 : In (k, v) (t_data t2)).
      { apply dict_get_In. by rewrite <- Hdata. }
      rewrite (Hee _ _ Hin1) in He. by rewrite (prepare_none enc2 _ _ _ _ _ Hin2 He).
  Qed.

  Lemma build_keys {V} `{EqDecision V} secured dflt (ops : list (bytes * V)) k :
    dict_get (t_data (build secured dflt ops)) k <> None <->
    trie_get (build secured dflt ops) k <> dflt.
  Proof.
    destruct (build_ok secured dflt ops) as ([_ D] & _ & F). specialize (D k). rewrite F in D.
    unfold trie_get. rewrite F. destruct (dict_get _ k); cbn; [|done]. split; congruence.
  Qed.

  (** Two histories of [trie_set] after which every key reads the same value
      give the same root (or the same error), whatever the order of the
      insertions and whatever was overwritten or deleted in between; for a
      secured trie, unless two of its keys have the same hash. *)
  Theorem C25_root_of_mapping {V} `{EqDecision V} (enc : bytes -> V -> bytes)
      secured dflt (ops1 ops2 : list (bytes * V)) :
    (forall k, trie_get (build secured dflt ops1) k = trie_get (build secured dflt ops2) k) ->
    root cr enc (build secured dflt ops1) = root cr enc (build secured dflt ops2) \/
    (secured = true /\
     collides (fun k => trie_get (build secured dflt ops1) k <> dflt)).
  Proof.
    intros Hget.
    destruct (build_ok secured dflt ops1) as ([N1 D1] & S1 & F1).
    destruct (build_ok secured dflt ops2) as ([N2 D2] & S2 & F2).
    destruct (root_ext enc enc (build secured dflt ops1) (build secured dflt ops2))
      as [E|(Hs & x & y & Hx & Hy & R)]; [done|done|congruence| |done|by left|].
    - intros k. specialize (Hget k). unfold trie_get in Hget. rewrite F1, F2 in *.
      specialize (D1 k). specialize (D2 k).
      destruct (dict_get (t_data (build secured dflt ops1)) k),
        (dict_get (t_data (build secured dflt ops2)) k); cbn in Hget; congruence.
    - right. split; [congruence|]. exists x, y. apply build_keys in Hx, Hy. done.
  Qed.

  (** The root exists whenever no encoded value is empty. *)
  Theorem C25_root_defined {V} `{EqDecision V} (enc : bytes -> V -> bytes)
      secured dflt (ops : list (bytes * V)) :
    (forall k v, enc k v <> []) ->
    (exists r, root cr enc (build secured dflt ops) = Some r /\ length r = 32%nat) \/
    (secured = true /\ collides (fun k => trie_get (build secured dflt ops) k <> dflt)).
  Proof.
    intros He. destruct (build_ok secured dflt ops) as ([N1 D1] & S1 & F1).
    destruct (keys_collide (build secured dflt ops)) as [A1|(Hs & x & y & Hx & Hy & R)].
    2:{ right. split; [congruence|]. exists x, y. apply build_keys in Hx, Hy. done. }
    left. destruct (root_spec enc _ N1 A1) as (M1 & p1 & Fi1 & P1 & ->); [by intros|].
    eexists. split; [done|]. apply keccak_32.
  Qed.

  (** ** C26: the root commits to the mapping *)

  (** Keys and encoded values are below 2^58 bytes (RLP cannot express more
      than 2^64), and encoded values are not empty (else there is no root). *)
  Definition trie_small {V} (enc : bytes -> V -> bytes) (t : trie V) : Prop :=
    forall k v, dict_get (t_data t) k = Some v ->
      lenN k < 2 ^ 58 /\ enc k v <> [] /\ lenN (enc k v) < 2 ^ 58.

  Lemma files_small {V} (enc : bytes -> V -> bytes) (t : trie V) M p :
    trie_small enc t -> files enc t M -> Patricia M p -> small p.
  Proof.
    intros Hs F P. eapply Patricia_small; [exact keccak_32|exact P|]. intros n e Hn.
    apply F in Hn as (k & v & Hk & -> & ->). destruct (Hs k v Hk) as (H1 & H2 & H3).
    rewrite filed_nibbles. refine (conj (nibble_list_nibbles _) (conj _ _)); [|lia].
    unfold lenN in *. rewrite nibble_list_len. destruct (t_secured t); [rewrite keccak_32|]; lia.
  Qed.

  Theorem C26_root_commits {V1 V2} (enc1 : bytes -> V1 -> bytes) (enc2 : bytes -> V2 -> bytes)
      (t1 : trie V1) (t2 : trie V2) r :
    NoDup (map fst (t_data t1)) -> NoDup (map fst (t_data t2)) ->
    t_secured t1 = t_secured t2 -> trie_small enc1 t1 -> trie_small enc2 t2 ->
    root cr enc1 t1 = Some r -> root cr enc2 t2 = Some r ->
    (forall k, enc1 k <$> dict_get (t_data t1) k = enc2 k <$> dict_get (t_data t2) k) \/
    collides (fun x => hashes enc1 t1 x \/ hashes enc2 t2 x).
  Proof.
    intros N1 N2 Hs Sm1 Sm2 R1 R2.
    destruct (keys_apart t1 (map fst (t_data t1))) as [A1|(k & k' & H1 & H2 & Hse & Hne & E)].
    2:{ right. exists k, k'. apply keys_In in H1, H2. repeat split; [left|left|done|done]; by constructor. }
    destruct (keys_apart t2 (map fst (t_data t2))) as [A2|(k & k' & H1 & H2 & Hse & Hne & E)].
    2:{ right. exists k, k'. apply keys_In in H1, H2. repeat split; [right|right|done|done]; by constructor. }
    destruct (root_spec enc1 t1 N1 A1) as (M1 & p1 & F1 & P1 & E1).
    { intros k v Hk. by apply (Sm1 k v). }
    destruct (root_spec enc2 t2 N2 A2) as (M2 & p2 & F2 & P2 & E2).
    { intros k v Hk. by apply (Sm2 k v). }
    rewrite E1 in R1. rewrite E2 in R2. injection R1 as R1. injection R2 as R2.
    assert (Hsm1 : small p1) by (exact (files_small enc1 t1 M1 p1 Sm1 F1 P1)).
    assert (Hsm2 : small p2) by (exact (files_small enc2 t2 M2 p2 Sm2 F2 P2)).
    destruct (tree_commit cr keccak_32 p1 p2 Hsm1 Hsm2) as [<-|(x & y & Hx & Hy & Hne & E)].
    - congruence.
    - assert (Hne : forall n, M1 n <> Some []).
      { intros n H. apply F1 in H as (k & v & Hk & _ & E). by destruct (Sm1 k v Hk) as (_ & ? & _). }
      assert (Hne2 : forall n, M2 n <> Some []).
      { intros n H. apply F2 in H as (k & v & Hk & _ & E). by destruct (Sm2 k v Hk) as (_ & ? & _). }
      assert (Hnib : forall (V : Type) enc (t : trie V) M, files enc t M ->
        forall n, M n <> None -> Forall nibble n).
      { intros V enc t M F n Hn. destruct (M n) as [e|] eqn:E; [|done].
        apply F in E as (k & v & _ & -> & _). rewrite filed_nibbles. apply nibble_list_nibbles. }
      pose proof (Patricia_injective M1 p1 P1 Hne (Hnib _ _ _ _ F1) M2 P2 Hne2 (Hnib _ _ _ _ F2)) as HM.
      assert (Hf : forall k, filed t1 k = filed t2 k) by (intros; unfold filed; by rewrite Hs).
      (* a key of one is a key of the other, or collides with one *)
      destruct (keys_apart t1 (map fst (t_data t1) ++ map fst (t_data t2)))
        as [A|(k & k' & H1 & H2 & Hse & Hkk & E)].
      2:{ right. exists k, k'. rewrite in_app_iff, !keys_In in H1, H2.
          assert (Hse2 : t_secured t2 = true) by congruence.
          repeat split; [destruct H1; [left|right]; by constructor|
                         destruct H2; [left|right]; by constructor|done|done]. }
      left. intros k. destruct (dict_get (t_data t1) k) as [v|] eqn:Ek.
      + assert (X : M1 (filed t1 k) = Some (enc1 k v)) by (apply F1; eauto).
        rewrite HM in X. apply F2 in X as (k' & v' & Ek' & Hfi & He).
        assert (k = k') as <-.
        { apply A; [apply in_or_app; left; apply keys_In; congruence|
                    apply in_or_app; right; apply keys_In; congruence|by rewrite (Hf k')]. }
        rewrite Ek'. cbn. by f_equal.
      + destruct (dict_get (t_data t2) k) as [v|] eqn:Ek2; [|done].
        assert (X : M2 (filed t2 k) = Some (enc2 k v)) by (apply F2; eauto).
        rewrite <- HM in X. apply F1 in X as (k' & v' & Ek' & Hfi & He).
        assert (k = k') as <-.
        { apply A; [apply in_or_app; right; apply keys_In; congruence|
                    apply in_or_app; left; apply keys_In; congruence|by rewrite (Hf k)]. }
        congruence.
    - right. exists x, y. repeat split; [left|right|done|done]; by econstructor.
  Qed.

  (** ** C27: the state root commits to the state *)

  Lemma mapped_dict {A K} `{Countable K} {V} (f : K -> bytes) (g : A -> V) (m : gmap K A) :
    (forall k k' x x', m !! k = Some x -> m !! k' = Some x' -> f k = f k' -> k = k') ->
    NoDup (map fst (map (fun '(k, v) => (f k, g v)) (map_to_list m))) /\
    forall b v, dict_get (map (fun '(k, v) => (f k, g v)) (map_to_list m)) b = Some v <->
      exists k x, m !! k = Some x /\ b = f k /\ v = g x.
  Proof.
    intros Hinj.
    assert (HN : NoDup (map fst (map (fun '(k, v) => (f k, g v)) (map_to_list m)))).
    { rewrite map_map. rewrite (map_ext _ (fun p : K * A => f (fst p))) by (by intros []).
      assert (HL : forall k x, In (k, x) (map_to_list m) -> m !! k = Some x).
      { intros k x Hin. apply elem_of_map_to_list. by apply elem_of_list_In. }
      pose proof (NoDup_fst_map_to_list m) as HNk. revert HL HNk.
      induction (map_to_list m) as [|[k x] l IH]; intros HL HNk; [apply NoDup_nil_2|].
      cbn in HNk |- *. apply NoDup_cons in HNk as [Hk HNk]. apply NoDup_cons_2.
      - intros Hin. apply Hk. apply elem_of_list_In in Hin. apply in_map_iff in Hin as ([k' x'] & E & Hin).
        cbn in E. assert (k = k') as <-.
        { apply (Hinj k k' x x'); [apply HL; by left|apply HL; by right|done]. }
        apply elem_of_list_fmap. exists (k, x'). split; [done|]. by apply elem_of_list_In.
      - apply IH; [|done]. intros a c Hin. apply HL. by right. }
    split; [done|]. intros b v. split.
    - intros E%dict_get_In. apply in_map_iff in E as ([k x] & [= <- <-] & Hin).
      exists k, x. split; [|done]. apply elem_of_map_to_list. by apply elem_of_list_In.
    - intros (k & x & Hk & -> & ->). apply dict_get_unique; [done|].
      apply in_map_iff. exists (k, x). split; [done|]. apply elem_of_list_In.
      by apply elem_of_map_to_list.
  Qed.

  (** Ranges of the Python types: 20-byte addresses, 32-byte slots and
      values, [U256] balances; nonces are bounded by EIP-2681 but any 256-bit
      value will do here. *)
  Record typed_state (s : state) : Prop := {
    ty_account : forall a acc, main_trie s !! a = Some acc ->
      a < 2 ^ 160 /\ nonce acc < 2 ^ 256 /\ balance acc < 2 ^ 256;
    ty_slot : forall a m k v, storage_tries s !! a = Some m -> m !! k = Some v ->
      k < 2 ^ 256 /\ v < 2 ^ 256
  }.

  Definition storage_of (s : state) (a : address) : slots := default ∅ (storage_tries s !! a).

  (** The leaf of an account: its RLP with the root of its storage. *)
  Definition account_encoding (s : state) : bytes -> option account -> bytes :=
    fun preimage v => match v with
      | Some a => match storage_root cr s (from_be_bytes preimage) with
                  | Some r => encode_account cr a r
                  | None => []
                  end
      | None => []
      end.

  (** The strings hashed in computing the state root: codes, slot keys and
      nodes of the storage tries, addresses and nodes of the account trie. *)
  Inductive state_hashes (s : state) : bytes -> Prop :=
  | sh_code a acc : main_trie s !! a = Some acc -> state_hashes s (code acc)
  | sh_storage a x : main_trie s !! a <> None ->
      hashes (fun _ => encode_u256) (storage_trie (storage_of s a)) x -> state_hashes s x
  | sh_account x : hashes (account_encoding s) (account_trie (main_trie s)) x -> state_hashes s x.

  Lemma to_be_fixed_length n x : length (to_be_fixed n x) = n.
  Proof. pose proof (to_be_fixed_len n x) as H. unfold lenN in H. lia. Qed.
  Lemma to_be_32_inj x y : x < 2 ^ 256 -> y < 2 ^ 256 -> to_be_bytes32 x = to_be_bytes32 y -> x = y.
  Proof.
    intros Hx Hy E. rewrite <- (from_to_be_bytes32 x), <- (from_to_be_bytes32 y) by done. by rewrite E.
  Qed.
  Lemma to_be_20_inj x y : x < 2 ^ 160 -> y < 2 ^ 160 -> to_be_bytes20 x = to_be_bytes20 y -> x = y.
  Proof.
    intros Hx Hy E. rewrite <- (from_to_be_bytes20 x), <- (from_to_be_bytes20 y) by done. by rewrite E.
  Qed.

  Lemma uint_len x : x < 2 ^ 256 -> lenN (encode (RUint x)) <= 41.
  Proof.
    intros H. unfold RUint.
    assert (L : lenN (to_be_bytes x) <= 32) by (apply to_be_bytes_len_le; exact H).
    pose proof (encode_bytes_len (to_be_bytes x)) as B.
    assert (lenN (to_be_bytes x) < 2 ^ 64) by (eapply N.le_lt_trans; [exact L|done]). lia.
  Qed.
  Lemma hash_len b : length b = 32%nat -> lenN (encode (RBytes b)) <= 41.
  Proof.
    intros H. assert (L : lenN b = 32) by (unfold lenN; lia).
    pose proof (encode_bytes_len b) as B. rewrite L in B. specialize (B eq_refl). lia.
  Qed.
  Lemma small_fits r : lenN (encode r) <= 200 -> fits r.
  Proof. intros H. unfold fits. eapply N.le_lt_trans; [exact H|done]. Qed.

  Lemma root_some {V} (enc : bytes -> V -> bytes) (t : trie V) r : root cr enc t = Some r ->
    length r = 32%nat /\ forall k v, In (k, v) (t_data t) -> enc k v <> [].
  Proof.
    unfold root, prepare_trie. intros E. split.
    - destruct (prepare_loop _ _ _ _ _) as [obj|]; [|done].
      destruct (patricialize _ _ _ _) as [n|]; [|done].
      match type of E with context [?a <? 32] => destruct (N.ltb_spec a 32) as [H|H] end.
      { injection E as <-. apply keccak_32. }
      unfold encode_internal_node in *.
      match type of E with context [?a <? 32] => destruct (N.ltb_spec a 32) as [H2|H2] end; [lia|].
      injection E as <-. apply keccak_32.
    - intros k v Hin He. by rewrite (prepare_none enc _ _ _ _ _ Hin He) in E.
  Qed.

  Lemma empty_root : root cr (fun _ => encode_u256) (storage_trie ∅) = Some (keccak256 cr [Byte.x80]).
  Proof. unfold storage_trie. rewrite map_to_list_empty. reflexivity. Qed.

  Lemma state_root_unfold s r : state_root cr s = Some r -> snapshots s = [] /\
    root cr (account_encoding s) (account_trie (main_trie s)) = Some r.
  Proof. unfold state_root. destruct (snapshots s); [done|done]. Qed.

  Lemma storage_root_unfold s a : keccak256 cr [Byte.x80] = EMPTY_TRIE_ROOT -> snapshots s = [] ->
    storage_root cr s a = root cr (fun _ => encode_u256) (storage_trie (storage_of s a)).
  Proof.
    intros HK Hs. unfold storage_root, storage_of. rewrite Hs.
    destruct (storage_tries s !! a) as [m|]; cbn [default]; [done|]. by rewrite empty_root, HK.
  Qed.

  Lemma encode_account_inj a1 a2 r1 r2 : nonce a1 < 2 ^ 256 -> nonce a2 < 2 ^ 256 ->
    balance a1 < 2 ^ 256 -> balance a2 < 2 ^ 256 -> length r1 = 32%nat -> length r2 = 32%nat ->
    encode_account cr a1 r1 = encode_account cr a2 r2 ->
    nonce a1 = nonce a2 /\ balance a1 = balance a2 /\ r1 = r2 /\
    keccak256 cr (code a1) = keccak256 cr (code a2).
  Proof.
    intros N1 N2 B1 B2 L1 L2 E.
    assert (F : forall a r, nonce a < 2 ^ 256 -> balance a < 2 ^ 256 -> length r = 32%nat ->
      fits (RList [RUint (nonce a); RUint (balance a); RBytes r; RBytes (keccak256 cr (code a))])).
    { intros a r Ha Hb Hr. apply encode_list_fits. cbn [map concat]. rewrite !lenN_app.
      pose proof (uint_len _ Ha). pose proof (uint_len _ Hb). pose proof (hash_len _ Hr).
      pose proof (hash_len _ (keccak_32 (code a))). replace (lenN []) with 0 by done.
      eapply (N.le_lt_trans _ 200); [lia|done]. }
    apply encode_inj in E; [|by apply F|by apply F]. injection E as En Eb Er Ec.
    apply to_be_bytes_inj in En, Eb. done.
  Qed.
  Lemma encode_account_len a r : nonce a < 2 ^ 256 -> balance a < 2 ^ 256 -> length r = 32%nat ->
    lenN (encode_account cr a r) <= 200.
  Proof.
    intros Ha Hb Hr. unfold encode_account. cbn [encode]. rewrite lenN_app. cbn [map concat].
    assert (L : lenN (encode (RUint (nonce a)) ++ encode (RUint (balance a)) ++ encode (RBytes r) ++
      encode (RBytes (keccak256 cr (code a))) ++ []) <= 164).
    { rewrite !lenN_app. pose proof (uint_len _ Ha). pose proof (uint_len _ Hb). pose proof (hash_len _ Hr).
      pose proof (hash_len _ (keccak_32 (code a))). replace (lenN []) with 0 by done. lia. }
    pose proof (encode_length_len (lenN (encode (RUint (nonce a)) ++ encode (RUint (balance a)) ++ encode (RBytes r) ++
      encode (RBytes (keccak256 cr (code a))) ++ [])) 192) as H.
    specialize (H ltac:(eapply N.le_lt_trans; [exact L|done])). lia.
  Qed.

  Lemma storage_range s a k v : typed_state s -> storage_of s a !! k = Some v ->
    k < 2 ^ 256 /\ v < 2 ^ 256.
  Proof.
    intros Hty H. unfold storage_of in H. destruct (storage_tries s !! a) as [m|] eqn:Em; [|done].
    exact (ty_slot s Hty a m k v Em H).
  Qed.
  Lemma storage_dict s a : typed_state s ->
    NoDup (map fst (t_data (storage_trie (storage_of s a)))) /\
    forall b v, dict_get (t_data (storage_trie (storage_of s a))) b = Some v <->
      exists k x, storage_of s a !! k = Some x /\ b = to_be_bytes32 k /\ v = x.
  Proof.
    intros Hty. apply (mapped_dict to_be_bytes32 (fun v => v)).
    intros k k' x x' H1 H2 E.
    apply to_be_32_inj; [apply (storage_range s a k x Hty H1)|apply (storage_range s a k' x' Hty H2)|done].
  Qed.
  Lemma account_dict s : typed_state s ->
    NoDup (map fst (t_data (account_trie (main_trie s)))) /\
    forall b v, dict_get (t_data (account_trie (main_trie s))) b = Some v <->
      exists a x, main_trie s !! a = Some x /\ b = to_be_bytes20 a /\ v = Some x.
  Proof.
    intros Hty. apply (mapped_dict to_be_bytes20 (@Some account)).
    intros k k' x x' H1 H2 E. apply to_be_20_inj; [apply (ty_account s Hty k x H1)|apply (ty_account s Hty k' x' H2)|done].
  Qed.

  Lemma storage_small s a : typed_state s ->
    trie_small (fun _ => encode_u256) (storage_trie (storage_of s a)).
  Proof.
    intros Hty k v Hk. apply (storage_dict s a Hty) in Hk as (k' & x & Hk & -> & ->).
    destruct (storage_range s a k' x Hty Hk) as [R1 R2]. rewrite lenN_to_be_bytes32.
    refine (conj _ (conj _ _)); [done| |].
    - destruct (encode_nonempty (RUint x)) as (y & l & E). unfold encode_u256. by rewrite E.
    - eapply N.le_lt_trans; [by apply uint_len|done].
  Qed.

  Lemma storage_commit s1 s2 a b r : typed_state s1 -> typed_state s2 ->
    root cr (fun _ => encode_u256) (storage_trie (storage_of s1 a)) = Some r ->
    root cr (fun _ => encode_u256) (storage_trie (storage_of s2 b)) = Some r ->
    (forall k, storage_of s1 a !! k = storage_of s2 b !! k) \/
    collides (fun x => hashes (fun _ => encode_u256) (storage_trie (storage_of s1 a)) x \/
                       hashes (fun _ => encode_u256) (storage_trie (storage_of s2 b)) x).
  Proof.
    intros T1 T2 R1 R2.
    destruct (storage_dict s1 a T1) as [N1 D1]. destruct (storage_dict s2 b T2) as [N2 D2].
    destruct (C26_root_commits _ _ _ _ r N1 N2 eq_refl (storage_small s1 a T1) (storage_small s2 b T2) R1 R2)
      as [H|H]; [left|by right].
    assert (G : forall s a s' b, typed_state s -> typed_state s' ->
      (forall b0 v, dict_get (t_data (storage_trie (storage_of s a))) b0 = Some v <->
        exists k x, storage_of s a !! k = Some x /\ b0 = to_be_bytes32 k /\ v = x) ->
      (forall b0 v, dict_get (t_data (storage_trie (storage_of s' b))) b0 = Some v <->
        exists k x, storage_of s' b !! k = Some x /\ b0 = to_be_bytes32 k /\ v = x) ->
      (forall k, encode_u256 <$> dict_get (t_data (storage_trie (storage_of s a))) k =
                 encode_u256 <$> dict_get (t_data (storage_trie (storage_of s' b))) k) ->
      forall k v, storage_of s a !! k = Some v -> storage_of s' b !! k = Some v).
    { clear -keccak_32. intros s a s' b T1 T2 D1 D2 H k v Hk. specialize (H (to_be_bytes32 k)).
      assert (E1 : dict_get (t_data (storage_trie (storage_of s a))) (to_be_bytes32 k) = Some v)
        by (apply D1; eauto).
      rewrite E1 in H.
      destruct (dict_get (t_data (storage_trie (storage_of s' b))) (to_be_bytes32 k)) as [v2|] eqn:E2; [|discriminate H].
      change (Some (encode_u256 v) = Some (encode_u256 v2)) in H.
      apply D2 in E2 as (k' & x & Hk' & Ek & ->). injection H as H.
      destruct (storage_range _ _ _ _ T1 Hk) as [A1 B1]. destruct (storage_range _ _ _ _ T2 Hk') as [A2 B2].
      apply to_be_32_inj in Ek; [|done|done]. subst k'.
      apply encode_inj in H; [|apply small_fits; pose proof (uint_len _ B1); lia|
                               apply small_fits; pose proof (uint_len _ B2); lia].
      injection H as H. apply to_be_bytes_inj in H. by subst. }
    intros k. destruct (storage_of s1 a !! k) as [v|] eqn:E1.
    - symmetry. by apply (G s1 a s2 b T1 T2 D1 D2 H).
    - destruct (storage_of s2 b !! k) as [v|] eqn:E2; [|done].
      rewrite (G s2 b s1 a T2 T1 D2 D1 (fun k => eq_sym (H k)) k v E2) in E1. done.
  Qed.

  Lemma get_storage_of s a k : get_storage s a k = default 0 (storage_of s a !! k).
  Proof.
    unfold get_storage, storage_of. by destruct (storage_tries s !! a).
  Qed.

  Lemma collides_mono (P Q : bytes -> Prop) : (forall x, P x -> Q x) -> collides P -> collides Q.
  Proof. intros H (x & y & Hx & Hy & R). exists x, y. auto. Qed.

  Lemma finite_choice {A} (l : list A) (P : A -> Prop) (C : Prop) :
    (forall x, In x l -> P x \/ C) -> (forall x, In x l -> P x) \/ C.
  Proof.
    induction l as [|x l IH]; intros H; [left; by intros|].
    destruct (H x (or_introl eq_refl)) as [Hx|]; [|by right].
    destruct IH as [IH|]; [intros; apply H; by right| |by right].
    left. intros y [<-|Hy]; auto.
  Qed.

  (** Two states with the same root have the same accounts (nonce, balance,
      code) and the same storage, or else two different strings among those
      hashed for these two roots have the same hash.  Storage counts only
      where there is an account: the root does not look at any other, and
      [rooted]-style invariants (C20) say there is none. *)
  Theorem C27_state_root_commits s1 s2 r :
    keccak256 cr [Byte.x80] = EMPTY_TRIE_ROOT ->
    typed_state s1 -> typed_state s2 ->
    (forall a k, get_storage s1 a k <> 0 -> get_account_optional s1 a <> None) ->
    (forall a k, get_storage s2 a k <> 0 -> get_account_optional s2 a <> None) ->
    state_root cr s1 = Some r -> state_root cr s2 = Some r ->
    (forall a, get_account_optional s1 a = get_account_optional s2 a /\
               forall k, get_storage s1 a k = get_storage s2 a k) \/
    collides (fun x => state_hashes s1 x \/ state_hashes s2 x).
  Proof.
    intros HK T1 T2 O1 O2 R1 R2.
    apply state_root_unfold in R1 as [S1 R1]. apply state_root_unfold in R2 as [S2 R2].
    destruct (account_dict s1 T1) as [N1 D1]. destruct (account_dict s2 T2) as [N2 D2].
    assert (Sm : forall s r, typed_state s -> snapshots s = [] ->
      root cr (account_encoding s) (account_trie (main_trie s)) = Some r ->
      trie_small (account_encoding s) (account_trie (main_trie s)) /\
      forall a acc, main_trie s !! a = Some acc -> exists sr,
        storage_root cr s a = Some sr /\ length sr = 32%nat /\
        account_encoding s (to_be_bytes20 a) (Some acc) = encode_account cr acc sr).
    { clear -keccak_32 HK. intros s r T S R. destruct (account_dict s T) as [N D].
      apply root_some in R as [_ Hne].
      assert (G : forall a acc, main_trie s !! a = Some acc -> exists sr,
        storage_root cr s a = Some sr /\ length sr = 32%nat /\
        account_encoding s (to_be_bytes20 a) (Some acc) = encode_account cr acc sr).
      { intros a acc Ha. destruct (ty_account s T a acc Ha) as (Ra & _ & _).
        assert (Hin : In (to_be_bytes20 a, Some acc) (t_data (account_trie (main_trie s)))).
        { apply dict_get_In. apply D. eauto. }
        apply Hne in Hin. unfold account_encoding in *. rewrite from_to_be_bytes20 in * by done.
        destruct (storage_root cr s a) as [sr|] eqn:E; [|done]. exists sr.
        rewrite storage_root_unfold in E by done. apply root_some in E as [L _]. done. }
      split; [|done]. intros k v Hk.
      apply D in Hk as (a & acc & Ha & -> & ->). destruct (G a acc Ha) as (sr & _ & L & ->).
      destruct (ty_account s T a acc Ha) as (_ & Rn & Rb).
      refine (conj _ (conj _ _)).
      - unfold to_be_bytes20, lenN. rewrite to_be_fixed_length. done.
      - unfold encode_account.
        destruct (encode_nonempty (RList [RUint (nonce acc); RUint (balance acc); RBytes sr;
          RBytes (keccak256 cr (code acc))])) as (y & l & E). by rewrite E.
      - eapply N.le_lt_trans; [by apply encode_account_len|done]. }
    destruct (Sm s1 r T1 S1 R1) as [Sm1 G1]. destruct (Sm s2 r T2 S2 R2) as [Sm2 G2]. clear Sm.
    destruct (C26_root_commits _ _ _ _ r N1 N2 eq_refl Sm1 Sm2 R1 R2) as [H|H].
    2:{ right. eapply collides_mono; [|exact H]. intros x [Hx|Hx]; [left|right]; by apply sh_account. }
    (* the same addresses have accounts *)
    assert (Hdom : forall s s', typed_state s -> typed_state s' ->
      (forall b v, dict_get (t_data (account_trie (main_trie s))) b = Some v <->
        exists a x, main_trie s !! a = Some x /\ b = to_be_bytes20 a /\ v = Some x) ->
      (forall b v, dict_get (t_data (account_trie (main_trie s'))) b = Some v <->
        exists a x, main_trie s' !! a = Some x /\ b = to_be_bytes20 a /\ v = Some x) ->
      (forall k, account_encoding s k <$> dict_get (t_data (account_trie (main_trie s))) k =
                 account_encoding s' k <$> dict_get (t_data (account_trie (main_trie s'))) k) ->
      forall a acc, main_trie s !! a = Some acc -> exists acc', main_trie s' !! a = Some acc' /\
        account_encoding s (to_be_bytes20 a) (Some acc) = account_encoding s' (to_be_bytes20 a) (Some acc')).
    { clear. intros s s' T T' D D' H a acc Ha. specialize (H (to_be_bytes20 a)).
      assert (E1 : dict_get (t_data (account_trie (main_trie s))) (to_be_bytes20 a) = Some (Some acc))
        by (apply D; eauto).
      rewrite E1 in H.
      destruct (dict_get (t_data (account_trie (main_trie s'))) (to_be_bytes20 a)) as [v2|] eqn:E2; [|discriminate H].
      change (Some (account_encoding s (to_be_bytes20 a) (Some acc)) =
              Some (account_encoding s' (to_be_bytes20 a) v2)) in H.
      apply D' in E2 as (a' & acc' & Ha' & Ea & ->). apply to_be_20_inj in Ea;
        [|apply (ty_account s T a acc Ha)|apply (ty_account s' T' a' acc' Ha')].
      subst a'. injection H as H. eauto. }
    pose proof (Hdom s1 s2 T1 T2 D1 D2 H) as H12.
    pose proof (Hdom s2 s1 T2 T1 D2 D1 (fun k => eq_sym (H k))) as H21. clear Hdom.
    destruct (finite_choice (map_to_list (main_trie s1))
      (fun p => main_trie s2 !! p.1 = Some p.2 /\
                forall k, storage_of s1 p.1 !! k = storage_of s2 p.1 !! k)
      (collides (fun x => state_hashes s1 x \/ state_hashes s2 x))) as [F|F]; [|left|by right].
    - intros [a acc] Hin. cbn [fst snd]. apply elem_of_list_In, elem_of_map_to_list in Hin.
      destruct (H12 a acc Hin) as (acc' & Hin' & E).
      destruct (G1 a acc Hin) as (sr1 & Hs1 & L1 & E1). destruct (G2 a acc' Hin') as (sr2 & Hs2 & L2 & E2).
      rewrite E1, E2 in E.
      destruct (ty_account s1 T1 a acc Hin) as (Ra & Rn1 & Rb1).
      destruct (ty_account s2 T2 a acc' Hin') as (_ & Rn2 & Rb2).
      apply encode_account_inj in E as (En & Eb & Er & Ec); [|done..].
      subst sr2. rewrite storage_root_unfold in Hs1, Hs2 by done.
      destruct (decide (code acc = code acc')) as [Ecode|Ecode].
      2:{ right. exists (code acc), (code acc').
          refine (conj _ (conj _ (conj _ _))); [left; by eapply sh_code|right; by eapply sh_code|done|done]. }
      destruct (storage_commit s1 s2 a a sr1 T1 T2 Hs1 Hs2) as [Hst|Hst].
      + left. split; [|done]. rewrite Hin'. f_equal. destruct acc, acc'. cbn in *. congruence.
      + right. eapply collides_mono; [|exact Hst].
        intros x [Hx|Hx]; [left|right]; (eapply sh_storage; [|exact Hx]); congruence.
    - intros a. unfold get_account_optional in *. destruct (main_trie s1 !! a) as [acc|] eqn:E1.
      + destruct (F (a, acc)) as [Hacc Hst].
        { apply elem_of_list_In. by apply elem_of_map_to_list. }
        cbn [fst snd] in *. split; [done|]. intros k. rewrite !get_storage_of. by rewrite Hst.
      + assert (E2 : main_trie s2 !! a = None).
        { destruct (main_trie s2 !! a) as [acc'|] eqn:E2; [|done].
          destruct (H21 a acc' E2) as (acc & Hacc & _). congruence. }
        split; [done|]. intros k. specialize (O1 a k). specialize (O2 a k).
        destruct (N.eq_dec (get_storage s1 a k) 0) as [->|X]; [|by destruct (O1 X)].
        destruct (N.eq_dec (get_storage s2 a k) 0) as [->|X]; [done|by destruct (O2 X)].
  Qed.

  (** Conversely the root depends on nothing but accounts and storage, and
      not on the order in which the tries were filled: any history of
      [trie_set] that ends with the same contents has the same root, unless
      two addresses (or two slot keys of one account) have the same hash. *)
  Theorem C27_storage_root_of_contents s a ops r :
    typed_state s -> clean_state s -> storage_root cr s a = Some r ->
    keccak256 cr [Byte.x80] = EMPTY_TRIE_ROOT ->
    (forall k, k < 2 ^ 256 -> trie_get (build true 0 ops) (to_be_bytes32 k) = get_storage s a k) ->
    (forall b, length b <> 32%nat -> trie_get (build true 0 ops) b = 0) ->
    root cr (fun _ => encode_u256) (build true 0 ops) = Some r \/
    collides (fun b => exists k, b = to_be_bytes32 k /\ get_storage s a k <> 0).
  Proof.
    intros T [Cl _] R HK Hget Hlen.
    assert (S : snapshots s = []) by (unfold storage_root in R; by destruct (snapshots s)).
    rewrite storage_root_unfold in R by done.
    destruct (storage_dict s a T) as [N D].
    destruct (build_ok true 0 ops) as ([N1 D1] & S1 & F1).
    assert (Hnz : forall k v, storage_of s a !! k = Some v -> v <> 0).
    { intros k v Hk. unfold storage_of in Hk. destruct (storage_tries s !! a) as [m|] eqn:Em; [|done].
      exact (proj2 (Cl a m Em) k v Hk). }
    assert (HB : forall b : bytes, length b = 32%nat -> exists k, k < 2 ^ 256 /\ b = to_be_bytes32 k).
    { intros b Hb. exists (from_be_bytes b). pose proof (from_be_lt b) as L.
      assert (E : lenN b = 32) by (unfold lenN; lia). rewrite E in L. split; [exact L|].
      symmetry. unfold to_be_bytes32. replace 32%nat with (length b). apply to_from_be_fixed. }
    destruct (root_ext (fun _ => encode_u256) (fun _ => encode_u256)
      (storage_trie (storage_of s a)) (build true 0 ops)) as [E|(_ & x & y & Hx & Hy & Hne & E)];
      [done|done|by rewrite S1| |done|left; by rewrite <- E|].
    - intros b.
      assert (G : trie_get (build true 0 ops) b = default 0 (dict_get (t_data (storage_trie (storage_of s a))) b)).
      { destruct (decide (length b = 32%nat)) as [Hb|Hb].
        - destruct (HB b Hb) as (k & Hk & ->). rewrite Hget by done. rewrite get_storage_of.
          destruct (storage_of s a !! k) as [v|] eqn:E.
          + replace (dict_get (t_data (storage_trie (storage_of s a))) (to_be_bytes32 k)) with (Some v); [done|].
            symmetry. apply D. eauto.
          + destruct (dict_get (t_data (storage_trie (storage_of s a))) (to_be_bytes32 k)) as [v|] eqn:E2; [|done].
            apply D in E2 as (k' & x & Hk' & Ek & ->).
            apply to_be_32_inj in Ek; [|done|apply (storage_range _ _ _ _ T Hk')]. congruence.
        - rewrite Hlen by done.
          destruct (dict_get (t_data (storage_trie (storage_of s a))) b) as [v|] eqn:E2; [|done].
          apply D in E2 as (k' & x & Hk' & -> & ->). destruct Hb.
          unfold to_be_bytes32. apply to_be_fixed_length. }
      unfold trie_get in G. rewrite F1 in G. specialize (D1 b). rewrite F1 in D1.
      destruct (dict_get (t_data (build true 0 ops)) b) as [v1|],
        (dict_get (t_data (storage_trie (storage_of s a))) b) as [v2|] eqn:E2; cbn in G; try congruence.
      apply D in E2 as (k' & x & Hk' & -> & ->). apply Hnz in Hk'. congruence.
    - right. exists x, y.
      assert (X : forall b, dict_get (t_data (storage_trie (storage_of s a))) b <> None ->
        exists k, b = to_be_bytes32 k /\ get_storage s a k <> 0).
      { intros b Hb. destruct (dict_get (t_data (storage_trie (storage_of s a))) b) as [v|] eqn:E2; [|done].
        apply D in E2 as (k' & z & Hk' & -> & ->). exists k'. split; [done|].
        rewrite get_storage_of, Hk'. cbn. by eapply Hnz. }
      auto.
  Qed.
End Tries.

(** ** Concrete cases: a polynomial hash, fixed up on [0x80] *)
Definition poly_hash (b : bytes) : bytes :=
  if bytes_eqb b [Byte.x80] then EMPTY_TRIE_ROOT
  else to_be_bytes32 (fold_left (fun acc x => (acc * 251 + Byte.to_N x + 1) mod 65521) b 7).
Definition poly_crypto : crypto := {|
  keccak256 := poly_hash; sha256_digest := poly_hash; ripemd160_digest := poly_hash;
  secp256k1_recover := fun _ _ _ _ => None; secp256r1_verify := fun _ _ _ _ _ => false;
  bn128_add := fun p _ => p; bn128_mul := fun p _ => p;
  bn128_g2_mul := fun p _ => p; bn128_pairing_is_one := fun _ => true;
  bls_g1_add := fun p _ => p; bls_g1_mul := fun p _ => p; bls_g2_add := fun p _ => p;
  bls_g2_mul := fun p _ => p; bls_g2_neg := fun p => p; bls_map_to_g1 := fun x => (x, x);
  bls_map_to_g2 := fun x => (x, x); bls_pairing_is_one := fun _ => true;
  bls_g1_generator := (1, 2); bls_g2_generator := ((1, 2), (3, 4));
  bls_pubkey_to_g1 := fun _ => None; bls_signature_to_g2 := fun _ => None;
  bls_key_validate := fun _ => false |}.

Lemma poly_hash_32 x : length (poly_hash x) = 32%nat.
Proof. unfold poly_hash. destruct (bytes_eqb x [Byte.x80]); apply to_be_fixed_length. Qed.

(** Keys of different lengths, one a prefix of the other, in two orders, with
    an overwritten value and a deleted key. *)
Definition ops_a : list (bytes * bytes) :=
  [(bs [0x12; 0x34], bs [1]); (bs [0x12], bs [2; 2]); (bs [0x15; 0x34], bs (repeat 9 40)); ([], bs [7])].
Definition ops_b : list (bytes * bytes) :=
  [([], bs [9; 9]); (bs [0x15; 0x34], bs (repeat 9 40)); (bs [0xff], bs [3]); (bs [0x12; 0x34], bs [1]);
   ([], bs [7]); (bs [0x12], bs [2; 2]); (bs [0xff], [])].
Example C25_nonvacuous :
  (forall secured k, trie_get (build secured [] ops_a) k = trie_get (build secured [] ops_b) k) /\
  t_data (build false [] ops_a) <> t_data (build false [] ops_b) /\
  root poly_crypto (fun _ v => v) (build false [] ops_a) = root poly_crypto (fun _ v => v) (build false [] ops_b) /\
  root poly_crypto (fun _ v => v) (build true [] ops_a) = root poly_crypto (fun _ v => v) (build true [] ops_b) /\
  root poly_crypto (fun _ v => v) (build true [] ops_a) <> root poly_crypto (fun _ v => v) (build false [] ops_a).
Proof.
  refine (conj _ (conj _ (conj _ (conj _ _)))); [|vm_compute; discriminate|vm_compute; done|vm_compute; done|
                                                   vm_compute; discriminate].
  intros secured k. unfold trie_get.
  replace (t_data (build secured [] ops_a)) with (t_data (build false [] ops_a)) by (by destruct secured).
  replace (t_data (build secured [] ops_b)) with (t_data (build false [] ops_b)) by (by destruct secured).
  replace (t_default (build secured [] ops_a)) with (@nil byte) by (by destruct secured).
  replace (t_default (build secured [] ops_b)) with (@nil byte) by (by destruct secured).
  cbn [build ops_a ops_b fold_left]. vm_compute (t_data _). cbn [dict_get].
  repeat case_decide; subst; congruence || done.
Qed.

Lemma trie_small_ops ops :
  forallb (fun p : bytes * bytes => (lenN (fst p) <? 2 ^ 58) && (0 <? lenN (snd p)) && (lenN (snd p) <? 2 ^ 58))
    (t_data (build true [] ops)) = true -> trie_small (fun _ v => v) (build true [] ops).
Proof.
  intros F k v Hk. apply dict_get_In in Hk. rewrite forallb_forall in F. apply F in Hk.
  cbn [fst snd] in Hk. apply andb_true_iff in Hk as [[H1 H2]%andb_true_iff H3].
  apply N.ltb_lt in H1, H2, H3. refine (conj H1 (conj _ H3)). by intros ->.
Qed.
Example C26_nonvacuous :
  (NoDup (map fst (t_data (build true [] ops_a))) /\ NoDup (map fst (t_data (build true [] ops_b))) /\
   trie_small (fun _ v => v) (build true [] ops_a) /\ trie_small (fun _ v => v) (build true [] ops_b)) /\
  root poly_crypto (fun _ v => v) (build true [] ops_a) = root poly_crypto (fun _ v => v) (build true [] ops_b) /\
  root poly_crypto (fun _ v => v) (build true [] ops_a) <> None /\
  root poly_crypto (fun _ v => v) (build true [] (ops_a ++ [([], bs [8])]))
    <> root poly_crypto (fun _ v => v) (build true [] ops_a).
Proof.
  split.
  - refine (conj (proj1 (proj1 (build_ok true [] ops_a))) (conj (proj1 (proj1 (build_ok true [] ops_b)))
      (conj (trie_small_ops ops_a eq_refl) (trie_small_ops ops_b eq_refl)))).
  - vm_compute. repeat split; discriminate.
Qed.

Definition root_state : state :=
  toy_state [(0xaa, Account 3 1000 []); (0xbb, Account 1 0 (bs [0x60; 0x00]));
             (0xcc, Account 0 5 [])]
    {[ 0xbb := {[ 1 := 5; 2 := 9 ]} ]}.
(** The same contents, reached by another route (a slot set and cleared, an
    account added and removed). *)
Definition root_state2 : state :=
  toy_state [(0xcc, Account 0 5 []); (0xaa, Account 3 1000 []); (0xbb, Account 1 0 (bs [0x60; 0x00]))]
    (delete 0xaa (<[ 0xaa := {[ 7 := 7 ]} ]> {[ 0xbb := {[ 2 := 9; 1 := 5 ]} ]})).
Example C27_nonvacuous :
  keccak256 poly_crypto [Byte.x80] = EMPTY_TRIE_ROOT /\
  (forall x, length (keccak256 poly_crypto x) = 32%nat) /\
  typed_state root_state /\
  (forall a k, get_storage root_state a k <> 0 -> get_account_optional root_state a <> None) /\
  (exists r, state_root poly_crypto root_state = Some r) /\
  state_root poly_crypto root_state = state_root poly_crypto root_state2 /\
  state_root poly_crypto root_state <>
    state_root poly_crypto (toy_state [(0xaa, Account 3 1000 []); (0xbb, Account 1 0 (bs [0x60; 0x00]));
       (0xcc, Account 0 5 [])] {[ 0xbb := {[ 1 := 6; 2 := 9 ]} ]}).
Proof.
  refine (conj _ (conj _ (conj _ (conj _ (conj _ (conj _ _)))))).
  - done.
  - apply poly_hash_32.
  - constructor.
    + intros a acc H. apply elem_of_list_to_map_2 in H.
      apply elem_of_list_In in H. cbn [In] in H.
      destruct H as [[= <- <-]|[[= <- <-]|[[= <- <-]|[]]]]; cbn [nonce balance]; done.
    + intros a m k v Ha Hk. unfold root_state, toy_state in Ha. cbn [storage_tries] in Ha.
      apply lookup_singleton_Some in Ha as [<- <-].
      apply lookup_insert_Some in Hk as [[<- <-]|[_ Hk]]; [done|].
      apply lookup_singleton_Some in Hk as [<- <-]. done.
  - intros a k. unfold get_storage, root_state, toy_state, get_account_optional. cbn [storage_tries main_trie].
    destruct (decide (a = 0xbb)) as [->|Hne]; [vm_compute; done|].
    rewrite lookup_singleton_ne by done. done.
  - destruct (state_root poly_crypto root_state) eqn:E; [by eexists|]. vm_compute in E. discriminate E.
  - vm_compute. done.
  - vm_compute. discriminate.
Qed.

Definition PropTrie_theorems :=
  (@C24_compact_injective, @C24_compact_length, @C24_compact_decodes, @C24_nibbles,
   @C25_reads, @C25_root_of_mapping, @C25_root_defined, @C26_root_commits,
   @C27_state_root_commits, @C27_storage_root_of_contents).
Print Assumptions PropTrie_theorems.
