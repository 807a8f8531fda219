(** * TrieProofs: compact encoding, Patricia trees, what a root commits to. *)
From Verif Require Import Base State Rlp Vm StateSpec StateProofs NumericProofs RlpProofs Trie.
From Coq Require Import ZifyBool ZifyN ZifyNat.
Ltac Zify.zify_post_hook ::= idtac.

(** ** Nibbles *)
Definition nibble (x : N) : Prop := x < 16.

Lemma byte_of_N_inj a b : a < 256 -> b < 256 -> byte_of_N a = byte_of_N b -> a = b.
Proof.
  intros Ha Hb H. rewrite <- (byte_of_N_to_N a Ha), <- (byte_of_N_to_N b Hb). by rewrite H.
Qed.

Lemma nibble_pair_inj a b c d : nibble a -> nibble b -> nibble c -> nibble d ->
  byte_of_N (16 * a + b) = byte_of_N (16 * c + d) -> a = c /\ b = d.
Proof.
  unfold nibble. intros. assert (16 * a + b = 16 * c + d) by (apply byte_of_N_inj; [lia|lia|done]). split; lia.
Qed.

Lemma list_ind2 {A} (P : list A -> Prop) :
  P [] -> (forall x, P [x]) -> (forall x y l, P l -> P (x :: y :: l)) -> forall l, P l.
Proof.
  intros H0 H1 H2. fix IH 1. intros [|x [|y l]]; [done|apply H1|apply H2, IH].
Qed.

Lemma pack_inj x : forall y, Forall nibble x -> Forall nibble y ->
  lenN x mod 2 = 0 -> lenN y mod 2 = 0 -> pack_nibbles x = pack_nibbles y -> x = y.
Proof.
  induction x as [|a|a b x IH] using list_ind2; intros y Hx Hy Ex Ey E.
  - destruct y as [|c [|d y]]; [done|done|done].
  - done.
  - destruct y as [|c [|d y]]; [done|done|].
    cbn [pack_nibbles] in E. injection E as E1 E2.
    inversion_clear Hx as [|? ? Ha Hx']. inversion_clear Hx' as [|? ? Hb Hx].
    inversion_clear Hy as [|? ? Hc Hy']. inversion_clear Hy' as [|? ? Hd Hy].
    destruct (nibble_pair_inj _ _ _ _ Ha Hb Hc Hd E1) as [-> ->].
    assert (Hpar : forall (l : list N) u w, lenN (u :: w :: l) mod 2 = lenN l mod 2).
    { intros l u w. rewrite !lenN_cons. replace (1 + (1 + lenN l)) with (lenN l + 1 * 2) by lia.
      apply N.mod_add. lia. }
    rewrite Hpar in Ex, Ey. f_equal. f_equal. by apply IH.
Qed.

Lemma mod2_cases n : n mod 2 = 0 \/ n mod 2 = 1.
Proof. pose proof (N.mod_lt n 2 ltac:(lia)). lia. Qed.
Lemma mod2_succ n : (1 + n) mod 2 = if n mod 2 =? 0 then 1 else 0.
Proof.
  rewrite N.add_mod by lia. destruct (mod2_cases n) as [-> | ->]; done.
Qed.

Lemma compact_cases x l : Forall nibble x ->
  (lenN x mod 2 = 0 /\ nibble_list_to_compact x l
     = byte_of_N (16 * (2 * N.b2n l) + 0) :: pack_nibbles x) \/
  exists x0 r, x = x0 :: r /\ nibble x0 /\ Forall nibble r /\ lenN r mod 2 = 0 /\
    nibble_list_to_compact x l = byte_of_N (16 * (2 * N.b2n l + 1) + x0) :: pack_nibbles r.
Proof.
  intros Hx. unfold nibble_list_to_compact. destruct (mod2_cases (lenN x)) as [E|E]; rewrite E.
  - left. split; [done|]. cbn. by rewrite N.add_0_r.
  - right. destruct Hx as [|x0 r H0 Hr]; [done|]. exists x0, r.
    rewrite lenN_cons, mod2_succ in E. destruct (N.eqb_spec (lenN r mod 2) 0); done.
Qed.

Lemma compact_inj x y l m : Forall nibble x -> Forall nibble y ->
  nibble_list_to_compact x l = nibble_list_to_compact y m -> x = y /\ l = m.
Proof.
  intros Hx Hy.
  assert (Hl : forall b, nibble (2 * N.b2n b)) by (intros []; unfold nibble; cbn; lia).
  assert (Hl1 : forall b, nibble (2 * N.b2n b + 1)) by (intros []; unfold nibble; cbn; lia).
  assert (H0 : nibble 0) by (unfold nibble; lia).
  destruct (compact_cases x l Hx) as [[Ex ->]|(x0 & x' & -> & Hx0 & Hx' & Ex & ->)];
  destruct (compact_cases y m Hy) as [[Ey ->]|(y0 & y' & -> & Hy0 & Hy' & Ey & ->)];
    intros [= E1 E2]; apply nibble_pair_inj in E1 as [E1 E3]; auto.
  - split; [by apply pack_inj|]. destruct l, m; cbn in E1; (done || lia).
  - destruct l, m; cbn in E1; lia.
  - destruct l, m; cbn in E1; lia.
  - subst. split; [f_equal; by apply pack_inj|]. destruct l, m; cbn in E1; (done || lia).
Qed.

Lemma pack_len x : lenN (pack_nibbles x) = lenN x / 2.
Proof.
  induction x as [|a|a b x IH] using list_ind2; cbn [pack_nibbles]; [done|done|].
  rewrite !lenN_cons, IH. replace (1 + (1 + lenN x)) with (lenN x + 1 * 2) by lia.
  rewrite N.div_add by lia. lia.
Qed.
Lemma compact_len x l : lenN (nibble_list_to_compact x l) = lenN x / 2 + 1.
Proof.
  unfold nibble_list_to_compact. destruct (mod2_cases (lenN x)) as [E|E]; rewrite E.
  - change (0 =? 0) with true. cbv iota. rewrite lenN_cons, pack_len. lia.
  - destruct x as [|a x]; [done|]. change (1 =? 0) with false. cbv iota. rewrite lenN_cons, pack_len, lenN_cons.
    rewrite lenN_cons, mod2_succ in E. destruct (N.eqb_spec (lenN x mod 2) 0) as [H|H]; [|done].
    pose proof (N.div_mod (lenN x) 2 ltac:(lia)) as D.
    replace ((1 + lenN x) / 2) with (lenN x / 2); [lia|].
    apply (N.div_unique _ _ _ 1); lia.
Qed.

Lemma nibble_list_value b : exists h l, h < 16 /\ l < 16 /\ Byte.to_N b = 16 * h + l /\
  N.shiftr (N.land (Byte.to_N b) 0xF0) 4 = h /\ N.land (Byte.to_N b) 0x0F = l.
Proof. destruct b; vm_compute; eexists _, _; repeat split; reflexivity. Qed.

Lemma nibble_list_nibbles b : Forall nibble (bytes_to_nibble_list b).
Proof.
  induction b as [|x b IH]; cbn [bytes_to_nibble_list]; [constructor|].
  destruct (nibble_list_value x) as (h & l & Hh & Hl & _ & -> & ->). by repeat constructor.
Qed.
Lemma nibble_list_len b : length (bytes_to_nibble_list b) = (2 * length b)%nat.
Proof. induction b as [|x b IH]; cbn [bytes_to_nibble_list length]; [done|]. rewrite IH. lia. Qed.
Lemma nibble_list_inj a b : bytes_to_nibble_list a = bytes_to_nibble_list b -> a = b.
Proof.
  revert b. induction a as [|x a IH]; intros [|y b]; cbn [bytes_to_nibble_list]; try done.
  destruct (nibble_list_value x) as (h & l & Hh & Hl & Ex & -> & ->).
  destruct (nibble_list_value y) as (h' & l' & Hh' & Hl' & Ey & -> & ->).
  intros [= -> -> E]. f_equal; [|by apply IH].
  apply byte_to_N_inj. congruence.
Qed.

(** ** Dictionaries *)
Section DictProofs.
  Context {K V : Type} `{EqDecision K}.
  Implicit Types d : list (K * V).
  Notation keys d := (map fst d).

  Lemma dict_get_In d k v : dict_get d k = Some v -> In (k, v) d.
  Proof.
    induction d as [|[k' v'] d IH]; cbn [dict_get]; [done|].
    destruct (decide (k' = k)) as [->|]; [intros [= ->]; by left|]. intros. right. auto.
  Qed.
  Lemma dict_get_None d k : dict_get d k = None <-> ~ In k (keys d).
  Proof.
    induction d as [|[k' v'] d IH]; cbn [dict_get map fst In]; [tauto|].
    destruct (decide (k' = k)) as [->|]; [split; [done|tauto]|]. rewrite IH. tauto.
  Qed.
  Lemma dict_get_unique d k v : NoDup (keys d) -> In (k, v) d -> dict_get d k = Some v.
  Proof.
    induction d as [|[k' v'] d IH]; cbn [dict_get map fst]; [done|].
    intros [H1 H2]%NoDup_cons Hin. destruct (decide (k' = k)) as [->|Hne].
    - destruct Hin as [[= ->]|Hin]; [done|]. exfalso. apply H1.
      apply elem_of_list_In. by apply (in_map fst) in Hin.
    - destruct Hin as [[= -> ->]|Hin]; [done|]. by apply IH.
  Qed.
  Lemma dict_get_set d k v k' :
    dict_get (dict_set d k v) k' = if decide (k = k') then Some v else dict_get d k'.
  Proof.
    induction d as [|[k1 v1] d IH]; cbn [dict_set dict_get]; [done|].
    destruct (decide (k1 = k)) as [->|Hne]; cbn [dict_get].
    - destruct (decide (k = k')); done.
    - rewrite IH. destruct (decide (k1 = k')) as [->|], (decide (k = k')) as [->|]; done.
  Qed.
  Lemma dict_get_del d k k' : NoDup (keys d) ->
    dict_get (dict_del d k) k' = if decide (k = k') then None else dict_get d k'.
  Proof.
    induction d as [|[k1 v1] d IH]; cbn [dict_del dict_get map fst].
    - by destruct (decide _).
    - intros [H1 H2]%NoDup_cons. destruct (decide (k1 = k)) as [->|Hne]; cbn [dict_get].
      + destruct (decide (k = k')) as [->|]; [|done]. apply dict_get_None.
        by rewrite <- elem_of_list_In.
      + rewrite IH by done.
        destruct (decide (k1 = k')) as [->|], (decide (k = k')) as [->|]; done.
  Qed.
  Lemma keys_set d k v x : In x (keys (dict_set d k v)) <-> x = k \/ In x (keys d).
  Proof.
    induction d as [|[k1 v1] d IH]; cbn [dict_set map fst In]; [split; intros [->|[]]; auto|].
    destruct (decide (k1 = k)) as [->|Hne]; cbn [map fst In]; [|rewrite IH]; split; intuition.
  Qed.
  Lemma NoDup_set d k v : NoDup (keys d) -> NoDup (keys (dict_set d k v)).
  Proof.
    induction d as [|[k1 v1] d IH]; cbn [dict_set map fst]; intros H.
    - apply NoDup_singleton.
    - apply NoDup_cons in H as [H1 H2].
      destruct (decide (k1 = k)) as [->|Hne]; cbn [map fst]; apply NoDup_cons; [done|].
      split; [|by apply IH]. rewrite elem_of_list_In, keys_set, <- elem_of_list_In. by intros [|].
  Qed.
  Lemma keys_del d k x : In x (keys (dict_del d k)) -> In x (keys d).
  Proof.
    induction d as [|[k1 v1] d IH]; cbn [dict_del map fst In]; [done|].
    destruct (decide (k1 = k)) as [->|Hne]; cbn [map fst In]; intuition.
  Qed.
  Lemma NoDup_del d k : NoDup (keys d) -> NoDup (keys (dict_del d k)).
  Proof.
    induction d as [|[k1 v1] d IH]; cbn [dict_del map fst]; intros H; [done|].
    apply NoDup_cons in H as [H1 H2].
    destruct (decide (k1 = k)) as [->|Hne]; cbn [map fst]; [done|]. apply NoDup_cons.
    split; [|by apply IH]. rewrite elem_of_list_In in *. intros ?%keys_del. done.
  Qed.
End DictProofs.

(** ** Patricia trees

    A tree that refers to its subtrees directly instead of by hash, and what
    it means for it to be the Patricia tree of a mapping from nibble-lists to
    non-empty byte strings. *)
Inductive tree :=
| TNil
| TLeaf (rest : nibbles) (v : bytes)
| TExt (seg : nibbles) (t : tree)
| TBranch (ts : list tree) (v : bytes).

Definition mapping := nibbles -> option bytes.
(** Two different keys are mapped. *)
Definition several (M : mapping) : Prop :=
  exists k1 k2, k1 <> k2 /\ M k1 <> None /\ M k2 <> None.
(** Every mapped key starts with [p]. *)
Definition all_start (M : mapping) (p : nibbles) : Prop :=
  forall k, M k <> None -> exists r, k = p ++ r.

(** [Patricia M t]: [t] is the Patricia tree of [M]. An empty mapping has the
    empty tree, a single key gives a leaf, several keys with a common prefix
    give an extension by their longest common prefix, and otherwise a branch
    on the next nibble. *)
Inductive Patricia : mapping -> tree -> Prop :=
| P_nil M : (forall k, M k = None) -> Patricia M TNil
| P_leaf M k v : M k = Some v -> (forall k', M k' <> None -> k' = k) -> Patricia M (TLeaf k v)
| P_ext M p t : several M -> p <> [] -> all_start M p ->
    (forall x, ~ all_start M (p ++ [x])) ->
    Patricia (fun k => M (p ++ k)) t -> Patricia M (TExt p t)
| P_branch M ts v : several M -> (forall x, ~ all_start M [x]) ->
    length ts = 16%nat ->
    (forall i t, nth_error ts i = Some t -> Patricia (fun k => M (N.of_nat i :: k)) t) ->
    default [] (M []) = v -> Patricia M (TBranch ts v).

Lemma nth_error_ext {A} (l1 l2 : list A) : length l1 = length l2 ->
  (forall i x y, nth_error l1 i = Some x -> nth_error l2 i = Some y -> x = y) -> l1 = l2.
Proof.
  revert l2. induction l1 as [|x l1 IH]; intros [|y l2] Hl H; try done.
  f_equal.
  - by apply (H 0%nat).
  - apply IH; [by injection Hl|]. intros i. apply (H (S i)).
Qed.

Lemma Patricia_ext M M' t : (forall k, M k = M' k) -> Patricia M t -> Patricia M' t.
Proof.
  intros E P. revert M' E.
  assert (Hs : forall M M', (forall k : nibbles, M k = M' k :> option bytes) -> several M -> several M').
  { intros M1 M2 E (k1 & k2 & H & H1 & H2). exists k1, k2. by rewrite <- !E. }
  assert (Ha : forall M M' p, (forall k : nibbles, M k = M' k :> option bytes) -> all_start M p -> all_start M' p).
  { intros M1 M2 p E H k. rewrite <- E. apply H. }
  induction P as [M H|M k v H1 H2|M p t H1 H2 H3 H4 H5 IH|M ts v H1 H2 H3 H4 IH H5];
    intros M' E.
  - constructor. intros k. by rewrite <- E.
  - constructor; [by rewrite <- E|]. intros k'. rewrite <- E. apply H2.
  - constructor; [exact (Hs _ _ E H1)|done|exact (Ha _ _ _ E H3)| |].
    + intros x Hx. apply (H4 x). exact (Ha _ _ _ (fun k => eq_sym (E k)) Hx).
    + apply IH. intros k. apply E.
  - constructor; [exact (Hs _ _ E H1)| |done| |].
    + intros x Hx. apply (H2 x). exact (Ha _ _ _ (fun k => eq_sym (E k)) Hx).
    + intros i t Hi. apply (IH i t Hi). intros k. apply E.
    + by rewrite <- E.
Qed.

(** The tree is determined by the mapping. *)
Lemma Patricia_unique M t : Patricia M t -> forall M' t',
  (forall k, M k = M' k) -> Patricia M' t' -> t = t'.
Proof.
  induction 1 as [M H|M k v H1 H2|M p t (k1 & k2 & Hk & H1 & H2) Hp Ha Hm Ht IH|
                  M ts v (k1 & k2 & Hk & H1 & H2) Hm Hl Ht IH Hv];
    intros M' t' E P'; destruct P' as [M' H'|M' k' v' H1' H2'|M' p' t' (k1' & k2' & Hk' & H1' & H2') Hp' Ha' Hm' Ht'|
                  M' ts' v' (k1' & k2' & Hk' & H1' & H2') Hm' Hl' Ht' Hv'].
  - done.
  - exfalso. rewrite <- E, H in H1'. done.
  - exfalso. apply H1'. by rewrite <- E.
  - exfalso. apply H1'. by rewrite <- E.
  - exfalso. rewrite E, H' in H1. done.
  - assert (k' = k) as -> by (apply H2; rewrite E; congruence). congruence.
  - exfalso. apply Hk'. rewrite (H2 k1'), (H2 k2'); rewrite ?E; done.
  - exfalso. apply Hk'. rewrite (H2 k1'), (H2 k2'); rewrite ?E; done.
  - exfalso. apply H1. rewrite E. done.
  - exfalso. apply Hk. rewrite E in H1, H2. by rewrite (H2' k1), (H2' k2).
  - assert (p = p') as <-.
    { destruct (Ha k1 H1) as [r Er]. rewrite E in H1. destruct (Ha' k1 H1) as [r' Er'].
      rewrite Er in Er'. clear Er.
      assert (Hno : forall q q' s s' (M1 M2 : mapping), (forall k, M1 k = M2 k) ->
        q ++ s = q' ++ s' -> all_start M2 q' -> (forall x, ~ all_start M1 (q ++ [x])) ->
        exists z, q = q' ++ z).
      { clear. induction q as [|x q IH]; intros q' s s' M1 M2 E Eq Hs Hn.
        - destruct q' as [|y q']; [by exists []|]. exfalso. apply (Hn y). intros k Hk.
          rewrite E in Hk. destruct (Hs k Hk) as [z ->]. by eexists.
        - destruct q' as [|y q']; [by eexists|]. injection Eq as -> Eq.
          destruct (IH q' s s' (fun k => M1 (y :: k)) (fun k => M2 (y :: k))) as [z ->];
            [intros; apply E|done| | |by exists z].
          + intros k Hk. destruct (Hs _ Hk) as [z [= ->]]. by eexists.
          + intros x Hx. apply (Hn x). intros k Hk. rewrite E in Hk.
            destruct (Hs k Hk) as [z ->]. destruct (Hx (q' ++ z)) as [z' Ez].
            { rewrite E. done. }
            exists z'. cbn. f_equal. done. }
      destruct (Hno p p' r r' M M') as [z Ez]; [done|done|done|done|].
      destruct (Hno p' p r' r M' M) as [z' Ez']; [by intros|done|done|done|].
      rewrite Ez' in Ez. rewrite <- app_assoc in Ez.
      apply (f_equal length) in Ez. rewrite !app_length in Ez.
      assert (z' = []) as -> by (destruct z'; [done|cbn in Ez; lia]).
      by rewrite app_nil_r in Ez'. }
    f_equal. by apply (IH (fun k => M' (p ++ k))).
  - exfalso. destruct p as [|x p]; [done|]. apply (Hm' x). intros k Hk0. rewrite <- E in Hk0.
    destruct (Ha k Hk0) as [r ->]. by eexists.
  - exfalso. apply H1. rewrite E. done.
  - exfalso. apply Hk. rewrite E in H1, H2. by rewrite (H2' k1), (H2' k2).
  - exfalso. destruct p' as [|x p']; [done|]. apply (Hm x). intros k Hk0. rewrite E in Hk0.
    destruct (Ha' k Hk0) as [r ->]. by eexists.
  - f_equal; [|by rewrite <- Hv, <- Hv', E].
    apply nth_error_ext; [by rewrite Hl, Hl'|]. intros i x y Ex Ey.
    exact (IH i x Ex (fun k => M' (N.of_nat i :: k)) y (fun k => E _) (Ht' i y Ey)).
Qed.

(** ... and determines it. *)
Lemma Patricia_injective M t : Patricia M t ->
  (forall k, M k <> Some []) -> (forall k, M k <> None -> Forall nibble k) ->
  forall M', Patricia M' t ->
  (forall k, M' k <> Some []) -> (forall k, M' k <> None -> Forall nibble k) ->
  forall k, M k = M' k.
Proof.
  induction 1 as [M H|M k0 v H1 H2|M p t Hs Hp Ha Hm Ht IH|M ts v Hs Hm Hl Ht IH Hv];
    intros Hne Hn M' P' Hne' Hn' k; inversion P' as
      [? H'|? ? ? H1' H2'|? ? ? Hs' Hp' Ha' Hm' Ht'|? ? ? Hs' Hm' Hl' Ht' Hv']; subst.
  - by rewrite H, H'.
  - destruct (decide (k = k0)) as [->|Hk]; [congruence|].
    destruct (M k) eqn:E; [exfalso; apply Hk, H2; congruence|].
    destruct (M' k) eqn:E'; [exfalso; apply Hk, H2'; congruence|]. done.
  - assert (Hsub : forall k, M (p ++ k) = M' (p ++ k)).
    { apply (IH (fun k => Hne _)) with (M' := fun k => M' (p ++ k)); [|done|intros; apply Hne'|].
      - intros k1 Hk. apply Hn in Hk. by apply Forall_app in Hk as [_ ?].
      - intros k1 Hk. apply Hn' in Hk. by apply Forall_app in Hk as [_ ?]. }
    destruct (M k) eqn:E.
    + destruct (Ha k) as [r ->]; [congruence|]. rewrite <- Hsub. done.
    + destruct (M' k) eqn:E'; [|done]. destruct (Ha' k) as [r ->]; [congruence|].
      rewrite Hsub in E. congruence.
  - destruct k as [|x k].
    + destruct (M []) as [v|] eqn:E, (M' []) as [v'|] eqn:E'; cbn in *; subst.
      * congruence.
      * exfalso. by apply (Hne []).
      * exfalso. by apply (Hne' []).
      * done.
    + destruct (decide (x < 16)) as [Hx|Hx].
      * destruct (nth_error ts (N.to_nat x)) as [t|] eqn:Et.
        2:{ apply nth_error_None in Et. lia. }
        pose proof (Ht _ _ Et) as P1. pose proof (Ht' _ _ Et) as P2. pose proof (IH _ _ Et) as IHt.
        rewrite N2Nat.id in *.
        apply (IHt (fun k => Hne _)) with (M' := fun k => M' (x :: k)); [|done|intros; apply Hne'|].
        -- intros k1 Hk. apply Hn in Hk. by inversion Hk.
        -- intros k1 Hk. apply Hn' in Hk. by inversion Hk.
      * destruct (M (x :: k)) eqn:E.
        { exfalso. assert (Hk : Forall nibble (x :: k)) by (apply Hn; congruence).
          by inversion Hk. }
        destruct (M' (x :: k)) eqn:E'; [|done].
        exfalso. assert (Hk : Forall nibble (x :: k)) by (apply Hn'; congruence).
        by inversion Hk.
Qed.

(** ** [patricialize] computes the Patricia tree *)
Section Patricialize.
  Context (cr : crypto).
  Notation enc_node := (encode_internal_node cr).

  (** The node of a tree, its subtrees replaced by what [encode_internal_node]
      makes of them. *)
  Fixpoint shallow (t : tree) : option internal_node :=
    match t with
    | TNil => None
    | TLeaf k v => Some (LeafNode k v)
    | TExt p t' => Some (ExtensionNode p (enc_node (shallow t')))
    | TBranch ts v => Some (BranchNode (map (fun t' => enc_node (shallow t')) ts) v)
    end.

  Lemma cpl_spec a b : let p := common_prefix_length a b in
    p <= lenN a /\ takeN p a = takeN p b /\
    (forall x, forall q r s, a = q ++ x :: r -> b = q ++ x :: s -> lenN q < p).
  Proof.
    cbn zeta. revert b. induction a as [|x a IH]; intros [|y b]; cbn [common_prefix_length].
    - refine (conj _ (conj _ _)); [lia|done|]. intros x [|? ?] ? ? ? ?; done.
    - refine (conj _ (conj _ _)); [lia|done|]. intros x [|? ?] ? ? ? ?; done.
    - refine (conj _ (conj _ _)); [lia|done|]. intros z [|? ?] ? ? ? ?; done.
    - destruct (N.eqb_spec x y) as [->|Hne].
      + destruct (IH b) as (H1 & H2 & H3). set (p := common_prefix_length a b) in *.
        rewrite lenN_cons. refine (conj _ (conj _ _)); [lia| |].
        * cbn [takeN]. destruct (N.eqb_spec (1 + p) 0); [lia|].
          replace (N.pred (1 + p)) with p by lia. by f_equal.
        * intros z [|u q] r s Ea Eb; [rewrite lenN_nil; lia|].
          injection Ea as -> Ea. injection Eb as Eb. rewrite lenN_cons.
          pose proof (H3 z q r s Ea Eb). lia.
      + refine (conj _ (conj _ _)); [lia|done|].
        intros z [|u q] r s Ea Eb; injection Ea as ? ?; injection Eb as ? ?; congruence.
  Qed.

  Lemma find_prefix_spec sub level obj : forall p0,
    let p := find_prefix_length sub level obj p0 in
    p <= p0 /\
    (forall k v, In (k, v) obj -> p <= common_prefix_length sub (dropN level k)) /\
    (p = p0 \/ exists k v, In (k, v) obj /\ p = common_prefix_length sub (dropN level k)).
  Proof.
    induction obj as [|[k v] obj IH]; intros p0; cbn [find_prefix_length]; cbn zeta.
    - refine (conj _ (conj _ _)); [lia|by intros|by left].
    - set (c := common_prefix_length sub (dropN level k)).
      destruct (N.eqb_spec (N.min p0 c) 0) as [H0|H0].
      + refine (conj _ (conj _ _)); [lia|intros; lia|].
        destruct (N.le_gt_cases p0 c); [left; lia|]. right. exists k, v. split; [by left|lia].
      + destruct (IH (N.min p0 c)) as (H1 & H2 & H3).
        set (p := find_prefix_length sub level obj (N.min p0 c)) in *.
        refine (conj _ (conj _ _)); [lia| |].
        * intros k' v' [[= <- <-]|Hin]; [change (p <= c); lia|by eapply H2].
        * destruct H3 as [H3|(k' & v' & Hin & H3)].
          -- destruct (N.le_gt_cases p0 c); [left; lia|]. right. exists k, v.
             split; [by left|change (p = c); lia].
          -- right. exists k', v'. split; [by right|done].
  Qed.

  Lemma collect_spec {A} (f : N -> option A) ks xs :
    (forall i k, nth_error ks i = Some k -> exists x, f k = Some x /\ nth_error xs i = Some x) ->
    length xs = length ks -> collect f ks = Some xs.
  Proof.
    revert xs. induction ks as [|k ks IH]; intros xs H Hl.
    - by destruct xs.
    - destruct xs as [|x xs]; [done|]. cbn [collect].
      destruct (H 0%nat k eq_refl) as (x' & E & [= ->]). rewrite E.
      rewrite (IH xs); [done| |by injection Hl].
      intros i k' Hi. destruct (H (S i) k' Hi) as (y & E1 & E2). eauto.
  Qed.

  (** The keys of [obj] all start with [pre]; [rest obj pre] maps what
      follows. *)
  Definition rest (obj : list (nibbles * bytes)) (pre : nibbles) : mapping :=
    fun k => dict_get obj (pre ++ k).

  Lemma branch_get obj pre i k :
    dict_get (branch i obj (lenN pre)) (pre ++ i :: k) = dict_get obj (pre ++ i :: k).
  Proof.
    unfold branch. induction obj as [|[k' v] obj IH]; [done|].
    rewrite filter_cons. cbn [fst dict_get].
    destruct (decide (nthN k' (lenN pre) = Some i)) as [H|H]; cbn [dict_get]; rewrite IH; [done|].
    destruct (decide (k' = pre ++ i :: k)) as [->|]; [|done]. exfalso. apply H.
    unfold nthN. by rewrite dropN_app_exact.
  Qed.

  Lemma nthN_app_pre (pre k : nibbles) : nthN (pre ++ k) (lenN pre) = head k.
  Proof. unfold nthN. by rewrite dropN_app_exact. Qed.

  Lemma branch_value_spec obj pre : NoDup (map fst obj) ->
    (forall k v, In (k, v) obj -> exists r, k = pre ++ r) ->
    branch_value obj (lenN pre) = default [] (rest obj pre []).
  Proof.
    unfold branch_value, rest. rewrite app_nil_r.
    assert (G : forall (obj : list (nibbles * bytes)) acc, NoDup (map fst obj) ->
      (forall k v, In (k, v) obj -> exists r, k = pre ++ r) ->
      fold_left (fun value '(key, v) => if lenN key =? lenN pre then v else value) obj acc
      = default acc (dict_get obj pre)).
    { clear obj. induction obj as [|[k v] obj IH]; intros acc HN HP; [done|].
      cbn [fold_left dict_get map fst] in *. apply NoDup_cons in HN as [Hk HN].
      rewrite IH; [|done|intros; eapply HP; by right].
      destruct (HP k v (or_introl eq_refl)) as [r ->]. rewrite lenN_app.
      destruct (N.eqb_spec (lenN pre + lenN r) (lenN pre)) as [E|E].
      - assert (r = []) as -> by (apply lenN_0; lia). rewrite app_nil_r in *.
        rewrite decide_True by done.
        assert (dict_get obj pre = None) as ->; [|done].
        apply dict_get_None. by rewrite <- elem_of_list_In.
      - rewrite decide_False; [done|]. intros Ep. apply E.
        apply (f_equal lenN) in Ep. rewrite lenN_app in Ep. done. }
    intros. by apply G.
  Qed.

  Lemma takeN_add {A} a b (l : list A) : takeN (a + b) l = takeN a l ++ takeN b (dropN a l).
  Proof.
    rewrite <- (takeN_dropN a l) at 1. rewrite !takeN_firstn, dropN_skipn.
    rewrite firstn_app. rewrite firstn_firstn, firstn_length.
    replace (Nat.min (N.to_nat (a + b)) (N.to_nat a)) with (N.to_nat a) by lia.
    f_equal. destruct (Nat.le_gt_cases (N.to_nat a) (length l)) as [H|H].
    - f_equal. lia.
    - rewrite skipn_all2 by lia. by rewrite !firstn_nil.
  Qed.

  Lemma NoDup_filter_keys i level (obj : list (nibbles * bytes)) :
    NoDup (map fst obj) -> NoDup (map fst (branch i obj level)).
  Proof.
    unfold branch. induction obj as [|[k v] obj IH]; [done|]. cbn [map fst].
    intros [H1 H2]%NoDup_cons. rewrite filter_cons.
    destruct (decide _); cbn [map fst]; [|by apply IH]. apply NoDup_cons. split; [|by apply IH].
    intros Hin. apply H1. rewrite elem_of_list_In in *. apply in_map_iff in Hin as ([k' v'] & <- & Hin).
    apply elem_of_list_In, elem_of_list_filter in Hin as [_ Hin]. apply elem_of_list_In in Hin.
    by apply (in_map fst) in Hin.
  Qed.

  Lemma patricialize_spec fuel : forall obj pre,
    (1 <= fuel)%nat -> NoDup (map fst obj) ->
    (forall k v, In (k, v) obj -> exists r, k = pre ++ r) ->
    (forall k v, In (k, v) obj -> (length k < length pre + fuel)%nat) ->
    (forall k v, In (k, v) obj -> Forall nibble k) ->
    exists t, patricialize cr fuel obj (lenN pre) = Some (shallow t) /\ Patricia (rest obj pre) t.
  Proof.
    induction fuel as [|f IH]; intros obj pre Hf HN HP HL Hnib; [lia|].
    destruct obj as [|[k0 v0] obj].
    { exists TNil. split; [done|]. by constructor. }
    destruct (HP k0 v0 (or_introl eq_refl)) as [r0 Ek0].
    destruct obj as [|[k1 v1] obj].
    { cbn [patricialize]. exists (TLeaf (dropN (lenN pre) k0) v0). split; [done|].
      rewrite Ek0, dropN_app_exact by done. constructor.
      - unfold rest. cbn [dict_get]. by rewrite decide_True.
      - intros k'. unfold rest. cbn [dict_get]. destruct (decide (pre ++ r0 = pre ++ k')) as [E|]; [|done].
        by apply app_inv_head in E. }
    set (all := (k0, v0) :: (k1, v1) :: obj) in *.
    assert (Hsev : several (rest all pre)).
    { destruct (HP k1 v1 ltac:(right; by left)) as [r1 Ek1].
      exists r0, r1. unfold rest. cbn [map fst] in HN. apply NoDup_cons in HN as [Hn0 HN].
      refine (conj _ (conj _ _)).
      - intros <-. apply Hn0. rewrite Ek0, Ek1. apply elem_of_cons. by left.
      - rewrite <- Ek0. unfold all. cbn [dict_get]. by rewrite decide_True.
      - rewrite <- Ek1. intros E. apply dict_get_None in E. apply E. right. by left. }
    assert (Hf1 : (1 <= f)%nat).
    { destruct (HP k1 v1 ltac:(right; by left)) as [r1 Ek1].
      pose proof (HL k0 v0 (or_introl eq_refl)) as L0. pose proof (HL k1 v1 ltac:(right; by left)) as L1.
      rewrite Ek0, app_length in L0. rewrite Ek1, app_length in L1.
      destruct f; [|lia]. destruct r0; [|cbn in L0; lia]. destruct r1; [|cbn in L1; lia].
      cbn [map fst] in HN. apply NoDup_cons in HN as [Hn0 _]. exfalso. apply Hn0.
      rewrite Ek0, Ek1. apply elem_of_cons. by left. }
    (* a mapped key is an entry *)
    assert (Hent : forall k, rest all pre k <> None -> exists v, In (pre ++ k, v) all).
    { intros k Hk. unfold rest in Hk. destruct (dict_get all (pre ++ k)) as [v|] eqn:E; [|done].
      exists v. by apply dict_get_In. }
    assert (Hmap : forall k v, In (k, v) all -> exists r, k = pre ++ r /\ rest all pre r <> None).
    { intros k v Hin. destruct (HP k v Hin) as [r ->]. exists r. split; [done|].
      unfold rest. by rewrite (dict_get_unique all _ _ HN Hin). }
    change (patricialize cr (S f) all (lenN pre)) with
      (let substring := dropN (lenN pre) k0 in
       let prefix_length := find_prefix_length substring (lenN pre) all (lenN substring) in
       if 0 <? prefix_length then
         match patricialize cr f all (lenN pre + prefix_length) with
         | Some n => Some (Some (ExtensionNode
             (sliceN (lenN pre) (lenN pre + prefix_length) k0) (encode_internal_node cr n)))
         | None => None
         end
       else
         match collect (fun k =>
                 match patricialize cr f (branch k all (lenN pre)) (lenN pre + 1) with
                 | Some n => Some (encode_internal_node cr n)
                 | None => None
                 end) [0;1;2;3;4;5;6;7;8;9;10;11;12;13;14;15] with
         | Some subnodes => Some (Some (BranchNode subnodes (branch_value all (lenN pre))))
         | None => None
         end).
    cbn zeta. replace (dropN (lenN pre) k0) with r0 by (rewrite Ek0; by rewrite dropN_app_exact).
    destruct (find_prefix_spec r0 (lenN pre) all (lenN r0)) as (Hp1 & Hp2 & Hp3).
    set (p := find_prefix_length r0 (lenN pre) all (lenN r0)) in *.
    assert (Hcommon : forall k v, In (k, v) all -> exists r, k = pre ++ takeN p r0 ++ r).
    { intros k v Hin. destruct (HP k v Hin) as [r ->]. specialize (Hp2 _ _ Hin).
      rewrite dropN_app_exact in Hp2 by done.
      destruct (cpl_spec r0 r) as (C1 & C2 & _). set (c := common_prefix_length r0 r) in *.
      exists (dropN p r). f_equal. rewrite <- (takeN_dropN p r) at 1. f_equal.
      replace c with (p + (c - p)) in C2 by lia. rewrite !takeN_add in C2.
      assert (E : lenN (takeN p r0) = lenN (takeN p r)).
      { apply (f_equal lenN) in C2. rewrite !lenN_app, !lenN_takeN, !lenN_dropN in *. lia. }
      symmetry. apply (f_equal (takeN (lenN (takeN p r0)))) in C2.
      rewrite takeN_app_exact in C2 by done. rewrite takeN_app_exact in C2 by done. done. }
    assert (Hmax : forall x, ~ all_start (rest all pre) (takeN p r0 ++ [x])).
    { intros x Hx.
      assert (Hx' : forall k v, In (k, v) all -> exists r, k = pre ++ takeN p r0 ++ x :: r).
      { intros k v Hin. destruct (Hmap k v Hin) as (r & -> & Hr). destruct (Hx r Hr) as [s ->].
        exists s. by rewrite <- app_assoc. }
      destruct (Hx' k0 v0 (or_introl eq_refl)) as [s0 E0]. rewrite Ek0 in E0. apply app_inv_head in E0.
      destruct Hp3 as [Hp3|(k & v & Hin & Hp3)].
      - apply (f_equal lenN) in E0. rewrite lenN_app, lenN_takeN, lenN_cons in E0. lia.
      - destruct (Hx' k v Hin) as [s Ek]. rewrite Ek, dropN_app_exact in Hp3 by done.
        destruct (cpl_spec r0 (takeN p r0 ++ x :: s)) as (_ & _ & C3).
        pose proof (C3 x (takeN p r0) s0 s E0 eq_refl) as L. rewrite <- Hp3, lenN_takeN in L. lia. }
    destruct (N.ltb_spec 0 p) as [Hp0|Hp0].
    - (* extension *)
      set (seg := takeN p r0) in *.
      assert (Hseg : lenN seg = p) by (unfold seg; rewrite lenN_takeN; lia).
      replace (lenN pre + p) with (lenN (pre ++ seg)) by (rewrite lenN_app; lia).
      destruct (IH all (pre ++ seg)) as (t & Et & Pt).
      + done.
      + done.
      + intros k v Hin. destruct (Hcommon k v Hin) as [r ->]. exists r. by rewrite app_assoc.
      + intros k v Hin. pose proof (HL k v Hin) as L. rewrite app_length.
        assert (1 <= length seg)%nat by (unfold lenN in Hseg; lia). lia.
      + done.
      + exists (TExt seg t). cbn [shallow]. rewrite Et. split.
        * do 3 f_equal. rewrite lenN_app, Hseg. unfold sliceN.
          replace (lenN pre + p - lenN pre) with p by lia. by rewrite Ek0, dropN_app_exact.
        * constructor; [done| | |done|].
          -- intros E. rewrite E, lenN_nil in Hseg. lia.
          -- intros k Hk. destruct (Hent k Hk) as [v Hin]. destruct (Hcommon _ v Hin) as [r E].
             apply app_inv_head in E. by exists r.
          -- refine (Patricia_ext _ _ _ _ Pt). intros k. unfold rest. by rewrite app_assoc.
    - (* branch *)
      assert (Hp : p = 0) by lia. rewrite Hp, takeN_0 in Hmax. cbn [app] in Hmax.
      assert (Hsub : forall i, exists t, patricialize cr f (branch i all (lenN pre)) (lenN pre + 1)
        = Some (shallow t) /\ Patricia (fun k => rest all pre (i :: k)) t).
      { intros i. destruct (IH (branch i all (lenN pre)) (pre ++ [i])) as (t & Et & Pt).
        - done.
        - by apply NoDup_filter_keys.
        - intros k v Hin. unfold branch in Hin.
          apply elem_of_list_In, elem_of_list_filter in Hin as [Hi Hin]. apply elem_of_list_In in Hin.
          destruct (HP k v Hin) as [r ->]. cbn [fst] in Hi. rewrite nthN_app_pre in Hi.
          destruct r as [|j r]; [done|]. injection Hi as ->. exists r. by rewrite <- app_assoc.
        - intros k v Hin. unfold branch in Hin.
          apply elem_of_list_In, elem_of_list_filter in Hin as [_ Hin]. apply elem_of_list_In in Hin.
          pose proof (HL k v Hin). rewrite app_length. cbn [length]. lia.
        - intros k v Hin. unfold branch in Hin.
          apply elem_of_list_In, elem_of_list_filter in Hin as [_ Hin]. apply elem_of_list_In in Hin.
          by eapply Hnib.
        - exists t. rewrite lenN_app in Et. replace (lenN [i]) with 1 in Et by done. split; [done|].
          refine (Patricia_ext _ _ _ _ Pt). intros k. unfold rest. rewrite <- app_assoc.
          apply branch_get. }
      assert (Hts : forall ks, exists ts, length ts = length ks /\
        forall i k, nth_error ks i = Some k -> exists t, nth_error ts i = Some t /\
          patricialize cr f (branch k all (lenN pre)) (lenN pre + 1) = Some (shallow t) /\
          Patricia (fun r => rest all pre (k :: r)) t).
      { induction ks as [|k ks (ts & Hl & IHk)].
        - exists []. split; [done|]. intros [|i] k; done.
        - destruct (Hsub k) as (t & Et & Pt). exists (t :: ts). split; [cbn; congruence|].
          intros [|i] k'; cbn [nth_error]; [intros [= <-]; eauto|apply IHk]. }
      set (ks := [0;1;2;3;4;5;6;7;8;9;10;11;12;13;14;15]) in *.
      destruct (Hts ks) as (ts & Hl & Hk). exists (TBranch ts (branch_value all (lenN pre))).
      rewrite (collect_spec _ ks (map (fun t' => enc_node (shallow t')) ts)).
      + split; [done|]. constructor; [done|done|done| |].
        * intros i t Hi. assert (Hks : nth_error ks i = Some (N.of_nat i)).
          { assert (i < 16)%nat by (change 16%nat with (length ks); rewrite <- Hl; apply nth_error_Some; congruence).
            do 16 (destruct i as [|i]; [done|]). lia. }
          destruct (Hk i _ Hks) as (t' & Et' & _ & Pt). congruence.
        * symmetry. by apply branch_value_spec.
      + intros i k Hi. destruct (Hk i k Hi) as (t & Et & Ep & _). rewrite Ep.
        eexists. split; [done|]. rewrite nth_error_map, Et. done.
      + by rewrite map_length.
  Qed.
End Patricialize.

(** ** Equal hashes mean equal trees, or a collision *)
Section Commit.
  Context (cr : crypto).
  Context (keccak_len : forall x, length (keccak256 cr x) = 32%nat).
  Notation shallow := (shallow cr).
  Notation enc_node := (encode_internal_node cr).

  Definition node_bytes (t : tree) : bytes := encode (unencoded_node (shallow t)).

  (** The byte strings hashed for a tree: its own node, and every node below
      whose encoding has at least 32 bytes. *)
  Fixpoint hashed_below (t : tree) : list bytes :=
    (if lenN (node_bytes t) <? 32 then [] else [node_bytes t]) ++
    match t with
    | TExt _ t' => hashed_below t'
    | TBranch ts _ => concat (map hashed_below ts)
    | _ => []
    end.
  Definition hashed (t : tree) : list bytes := node_bytes t :: hashed_below t.

  Definition collision (xs ys : list bytes) : Prop :=
    exists x y, In x xs /\ In y ys /\ x <> y /\ keccak256 cr x = keccak256 cr y.

  (** Keys are nibbles, and keys and values short enough for RLP. *)
  Fixpoint small (t : tree) : Prop :=
    match t with
    | TNil => True
    | TLeaf k v => Forall nibble k /\ lenN k < 2 ^ 60 /\ lenN v < 2 ^ 60
    | TExt p t' => Forall nibble p /\ lenN p < 2 ^ 60 /\ small t'
    | TBranch ts v => length ts = 16%nat /\ lenN v < 2 ^ 60 /\
        fold_right (fun t' P => small t' /\ P) True ts
    end.
  Lemma small_branch ts : fold_right (fun t' P => small t' /\ P) True ts <-> Forall small ts.
  Proof. induction ts as [|t ts IH]; cbn; [done|]. rewrite IH, Forall_cons. done. Qed.

  Lemma enc_node_len n : lenN (encode (enc_node n)) <= 33.
  Proof.
    unfold encode_internal_node. destruct (N.ltb_spec (lenN (encode (unencoded_node n))) 32); [lia|].
    pose proof (keccak_len (encode (unencoded_node n))) as L. set (h := keccak256 cr _) in *.
    cbn [encode]. destruct (encode_bytes_cases h) as [(x & E & _)|[_ E]].
    - rewrite E in L. done.
    - rewrite E. rewrite lenN_app. unfold lenN at 2 3. rewrite L.
      vm_compute. discriminate.
  Qed.


  Lemma compact_small k b : lenN k < 2 ^ 60 -> lenN (nibble_list_to_compact k b) < 2 ^ 61.
  Proof.
    intros H. rewrite compact_len.
    pose proof (N.div_le_upper_bound (lenN k) 2 (lenN k) ltac:(lia) ltac:(lia)). lia.
  Qed.

  Lemma node_fits t : small t -> fits (unencoded_node (shallow t)).
  Proof.
    destruct t as [|k v|p t'|ts v]; cbn [small shallow unencoded_node].
    - intros _. unfold fits. vm_compute. done.
    - intros (_ & Hk & Hv). apply encode_list_fits. cbn [map concat].
      rewrite !lenN_app, lenN_nil.
      pose proof (compact_small k true Hk) as Hc.
      pose proof (encode_bytes_len (nibble_list_to_compact k true) ltac:(lia)).
      pose proof (encode_bytes_len v ltac:(lia)).
      rewrite compact_len in *.
      pose proof (N.div_le_upper_bound (lenN k) 2 (lenN k) ltac:(lia) ltac:(lia)). lia.
    - intros (_ & Hp & _). apply encode_list_fits. cbn [map concat].
      rewrite !lenN_app, lenN_nil.
      pose proof (compact_small p false Hp) as Hc.
      pose proof (encode_bytes_len (nibble_list_to_compact p false) ltac:(lia)).
      pose proof (enc_node_len (shallow t')).
      rewrite compact_len in *.
      pose proof (N.div_le_upper_bound (lenN p) 2 (lenN p) ltac:(lia) ltac:(lia)). lia.
    - intros (Hl & Hv & _). apply encode_list_fits.
      rewrite map_app, concat_app, lenN_app. cbn [map concat].
      rewrite app_nil_r. pose proof (encode_bytes_len v ltac:(lia)).
      assert (Hb : forall ts, lenN (concat (map encode (map (fun t' => enc_node (shallow t')) ts)))
        <= 33 * lenN ts).
      { clear -keccak_len. induction ts as [|t ts IH]; [done|]. cbn [map concat].
        rewrite lenN_app, lenN_cons. pose proof (enc_node_len (shallow t)). lia. }
      specialize (Hb ts). unfold lenN in Hb at 2. rewrite Hl in Hb. lia.
  Qed.

  Lemma collision_mono xs ys xs' ys' : (forall x, In x xs -> In x xs') ->
    (forall y, In y ys -> In y ys') -> collision xs ys -> collision xs' ys'.
  Proof. intros Hx Hy (x & y & H1 & H2 & H). exists x, y. auto. Qed.

  Lemma tree_ind_nested (P : tree -> Prop) : P TNil -> (forall k v, P (TLeaf k v)) ->
    (forall p t, P t -> P (TExt p t)) -> (forall ts v, Forall P ts -> P (TBranch ts v)) ->
    forall t, P t.
  Proof.
    intros H1 H2 H3 H4. fix IH 1. intros [|k v|p t|ts v]; [done|apply H2|apply H3, IH|].
    apply H4. induction ts as [|t ts IHt]; constructor; [apply IH|apply IHt].
  Qed.

  Lemma unencoded_bytes t b : unencoded_node (shallow t) = RBytes b -> b = [].
  Proof. destruct t; cbn; by intros [= <-]. Qed.

  Lemma node_inj t1 t2 : small t1 -> small t2 -> node_bytes t1 = node_bytes t2 ->
    unencoded_node (shallow t1) = unencoded_node (shallow t2).
  Proof. intros H1 H2 E. by apply encode_inj; [apply node_fits|apply node_fits|]. Qed.

  (** References: either inlined nodes or hashes. *)
  Lemma ref_inj t1 t2 : small t1 -> small t2 ->
    enc_node (shallow t1) = enc_node (shallow t2) ->
    unencoded_node (shallow t1) = unencoded_node (shallow t2) \/
    collision (hashed_below t1) (hashed_below t2).
  Proof.
    intros S1 S2. unfold encode_internal_node.
    change (encode (unencoded_node (shallow t1))) with (node_bytes t1).
    change (encode (unencoded_node (shallow t2))) with (node_bytes t2).
    destruct (N.ltb_spec (lenN (node_bytes t1)) 32) as [H1|H1],
             (N.ltb_spec (lenN (node_bytes t2)) 32) as [H2|H2].
    - by left.
    - intros E. apply unencoded_bytes in E. pose proof (keccak_len (node_bytes t2)) as L.
      rewrite E in L. done.
    - intros E. symmetry in E. apply unencoded_bytes in E. pose proof (keccak_len (node_bytes t1)) as L.
      rewrite E in L. done.
    - intros [= E]. destruct (decide (node_bytes t1 = node_bytes t2)) as [Eb|Eb].
      + left. by apply node_inj.
      + right. exists (node_bytes t1), (node_bytes t2).
        assert (Hin : forall t, 32 <= lenN (node_bytes t) -> In (node_bytes t) (hashed_below t)).
        { intros t Ht. destruct t; cbn [hashed_below];
            match goal with |- context [?a <? 32] => destruct (N.ltb_spec a 32) end; (lia || by left). }
        repeat split; auto.
  Qed.

  Lemma node_commit t1 : forall t2, small t1 -> small t2 ->
    unencoded_node (shallow t1) = unencoded_node (shallow t2) ->
    t1 = t2 \/ collision (hashed_below t1) (hashed_below t2).
  Proof.
    induction t1 as [|k v|p t IH|ts v IH] using tree_ind_nested; intros t2 S1 S2.
    - destruct t2 as [|k2 v2|p2 t2|ts2 v2]; [by left|done|done|done].
    - destruct t2 as [|k2 v2|p2 t2|ts2 v2]; cbn [shallow unencoded_node].
      + done.
      + intros [= E1 ->]. left.
        apply compact_inj in E1 as [-> _]; [done|apply S1|apply S2].
      + intros [= E1 _]. apply compact_inj in E1 as [_ E1]; [done|apply S1|apply S2].
      + intros [= E]. apply (f_equal length) in E. rewrite app_length, map_length in E.
        destruct S2 as [Hl _]. rewrite Hl in E. cbn in E. lia.
    - destruct t2 as [|k2 v2|p2 t2|ts2 v2]; cbn [shallow unencoded_node].
      + done.
      + intros [= E1 _]. apply compact_inj in E1 as [_ E1]; [done|apply S1|apply S2].
      + intros [= E1 E2]. apply compact_inj in E1 as [-> _]; [|apply S1|apply S2].
        destruct S1 as (_ & _ & S1), S2 as (_ & _ & S2).
        assert (Hin : forall q t x, In x (hashed_below t) -> In x (hashed_below (TExt q t))).
        { intros q t0 x Hx. cbn [hashed_below]. apply in_or_app. by right. }
        destruct (ref_inj _ _ S1 S2 E2) as [E3|C].
        * destruct (IH t2 S1 S2 E3) as [-> |C]; [by left|].
          right. eapply collision_mono; [..|exact C]; apply Hin.
        * right. eapply collision_mono; [..|exact C]; apply Hin.
      + intros [= E]. apply (f_equal length) in E. rewrite app_length, map_length in E.
        destruct S2 as [Hl _]. rewrite Hl in E. cbn in E. lia.
    - destruct t2 as [|k2 v2|p2 t2|ts2 v2]; cbn [shallow unencoded_node].
      + done.
      + intros [= E]. apply (f_equal length) in E. rewrite app_length, map_length in E.
        destruct S1 as [Hl _]. rewrite Hl in E. cbn in E. lia.
      + intros [= E]. apply (f_equal length) in E. rewrite app_length, map_length in E.
        destruct S1 as [Hl _]. rewrite Hl in E. cbn in E. lia.
      + intros [= E]. apply app_inj_tail in E as [E [= ->]].
        destruct S1 as (L1 & _ & S1), S2 as (L2 & _ & S2).
        rewrite small_branch in S1, S2.
        assert (G : ts = ts2 \/ collision (concat (map hashed_below ts)) (concat (map hashed_below ts2))).
        { clear L1 L2. revert ts2 S2 E. induction IH as [|t ts Ht IH IH']; intros [|t2 ts2] S2 E;
            [by left|done|done|].
          injection E as E1 E2. inversion S1 as [|? ? S1a S1b]; subst.
          inversion S2 as [|? ? S2a S2b]; subst. cbn [map concat].
          assert (HC : collision (hashed_below t) (hashed_below t2) ->
            collision (hashed_below t ++ concat (map hashed_below ts))
                      (hashed_below t2 ++ concat (map hashed_below ts2))).
          { apply collision_mono; intros; apply in_or_app; by left. }
          destruct (ref_inj _ _ S1a S2a E1) as [E3|C]; [|right; auto].
          destruct (Ht t2 S1a S2a E3) as [-> |C]; [|right; auto].
          destruct (IH' S1b ts2 S2b E2) as [-> |C]; [by left|]. right.
          eapply collision_mono; [..|exact C]; intros; apply in_or_app; by right. }
        destruct G as [-> |C]; [by left|]. right.
        eapply collision_mono; [..|exact C]; intros; cbn [hashed_below]; apply in_or_app; by right.
  Qed.

  Lemma tree_commit t1 t2 : small t1 -> small t2 ->
    keccak256 cr (node_bytes t1) = keccak256 cr (node_bytes t2) ->
    t1 = t2 \/ collision (hashed t1) (hashed t2).
  Proof.
    intros S1 S2 E. destruct (decide (node_bytes t1 = node_bytes t2)) as [Eb|Eb].
    - destruct (node_commit t1 t2 S1 S2) as [-> |C]; [by apply node_inj|by left|].
      right. eapply collision_mono; [..|exact C]; intros; by right.
    - right. exists (node_bytes t1), (node_bytes t2). repeat split; [by left|by left|done|done].
  Qed.

  (** A Patricia tree of a mapping with short keys and values is small. *)
  Lemma Patricia_small M t : Patricia M t ->
    (forall k v, M k = Some v -> Forall nibble k /\ lenN k < 2 ^ 60 /\ lenN v < 2 ^ 60) -> small t.
  Proof.
    induction 1 as [M H|M k v H1 H2|M p t (k1 & k2 & Hk & H1 & _) Hp Ha Hm Ht IH|M ts v Hs Hm Hl Ht IH Hv];
      intros Hsm; cbn [small].
    - done.
    - exact (Hsm k v H1).
    - destruct (Ha k1 H1) as [r ->]. destruct (M (p ++ r)) as [v|] eqn:E; [|done].
      destruct (Hsm _ _ E) as (Hn & Hlen & _). apply Forall_app in Hn as [Hn _].
      rewrite lenN_app in Hlen. refine (conj Hn (conj _ _)); [lia|]. apply IH.
      intros k v' Ek. destruct (Hsm _ _ Ek) as (Hn' & Hlen' & Hv').
      apply Forall_app in Hn' as [_ Hn']. rewrite lenN_app in Hlen'. repeat split; [done|lia|done].
    - refine (conj Hl (conj _ _)).
      + destruct (M []) as [v'|] eqn:E; cbn in Hv; subst v; [|by vm_compute]. by apply (Hsm [] v').
      + apply small_branch, Forall_forall. intros t Hin. apply elem_of_list_In, In_nth_error in Hin as [i Hi].
        apply (IH i t Hi). intros k v' Ek. destruct (Hsm _ _ Ek) as (Hn' & Hlen' & Hv').
        inversion Hn'; subst. rewrite lenN_cons in Hlen'. repeat split; [done|lia|done].
  Qed.

  (** The root of a trie is the hash of the top node of its Patricia tree. *)
  Lemma enc_node_root n :
    (if lenN (encode (enc_node n)) <? 32 then Some (keccak256 cr (encode (enc_node n)))
     else match enc_node n with RBytes b => Some b | RList _ => None end)
    = Some (keccak256 cr (encode (unencoded_node n))).
  Proof.
    unfold encode_internal_node.
    destruct (N.ltb_spec (lenN (encode (unencoded_node n))) 32) as [H|H].
    - destruct (N.ltb_spec (lenN (encode (unencoded_node n))) 32); [done|lia].
    - destruct (N.ltb_spec (lenN (encode (RBytes (keccak256 cr (encode (unencoded_node n)))))) 32) as [H2|H2].
      + exfalso. pose proof (keccak_len (encode (unencoded_node n))) as L.
        set (h := keccak256 cr _) in *. cbn [encode] in H2.
        destruct (encode_bytes_cases h) as [(x & E & _)|[_ E]]; [rewrite E in L; done|].
        rewrite E, lenN_app in H2.
        assert (Lh : lenN h = 32) by (unfold lenN; by rewrite L). lia.
      + done.
  Qed.
End Commit.
