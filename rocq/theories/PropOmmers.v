(** * PropOmmers: ommers and chains of the proof-of-work forks (C64) *)
From Coq Require Import ZifyBool ZifyN ZifyNat.
From Verif Require Import Base PrecompileSpec State Rlp RlpProofs Vm StateSpec StateProofs PropTx PropBlocks
  Transactions NumericProofs Trie Blocks Requests Fork ForkProofs PropFees PropChain PropHeader Ethash PropEthash
  Pow PropDifficulty PropPow.
Ltac Zify.zify_post_hook ::= idtac.

(** [x] is among the last [k] elements of [l]. *)
Definition among_last {A} (k : nat) (l : list A) (x : A) : Prop :=
  exists i, (i < k)%nat /\ nth_error (rev l) i = Some x.

Lemma nth_error_rev {A} (l : list A) i : (i < length l)%nat ->
  nth_error (rev l) i = nth_error l (length l - 1 - i).
Proof.
  intros H. destruct (nth_error l (length l - 1 - i)) as [x|] eqn:E.
  - rewrite (nth_error_nth' (rev l) x) by (rewrite rev_length; lia).
    rewrite rev_nth by done. f_equal. replace (length l - S i)%nat with (length l - 1 - i)%nat by lia.
    by apply nth_error_nth.
  - apply nth_error_None in E. lia.
Qed.
Lemma among_last_nth {A} k (l : list A) x :
  among_last k l x <-> exists i, nth_error l i = Some x /\ (length l <= i + k)%nat.
Proof.
  unfold among_last. split.
  - intros (i & Hi & E). assert (i < length l)%nat.
    { rewrite <- rev_length. apply nth_error_Some. congruence. }
    rewrite nth_error_rev in E by done. exists (length l - 1 - i)%nat. split; [done|lia].
  - intros (i & E & Hi). assert (i < length l)%nat by (apply nth_error_Some; congruence).
    exists (length l - 1 - i)%nat. split; [lia|]. rewrite nth_error_rev by lia. rewrite <- E.
    f_equal. lia.
Qed.
Lemma In_lastN {A} n (l : list A) x : In x (lastN n l) <-> among_last (N.to_nat n) l x.
Proof.
  rewrite among_last_nth. unfold lastN. rewrite dropN_skipn. unfold lenN. split.
  - intros [i Hi]%In_nth_error. rewrite nth_error_drop in Hi. eexists. split; [exact Hi|].
    assert (N.to_nat (N.of_nat (length l) - n) + i < length l)%nat; [|lia].
    apply nth_error_Some. congruence.
  - intros (i & E & Hi). assert (i < length l)%nat by (apply nth_error_Some; congruence).
    apply (nth_error_In _ (i - N.to_nat (N.of_nat (length l) - n))%nat).
    rewrite nth_error_drop, <- E. f_equal. lia.
Qed.

Lemma nth_error_firstn {A} n (l : list A) i :
  nth_error (firstn n l) i = if (i <? n)%nat then nth_error l i else None.
Proof.
  revert l i. induction n as [|n IH]; intros l i; [by destruct i|].
  destruct l as [|x l]; [by destruct i, (_ <? _)%nat|]. destruct i as [|i]; [done|]. change (S i <? S n)%nat with (i <? n)%nat. apply (IH l i).
Qed.

Section ommers.
  Context (cr : crypto) (k512 : bytes -> bytes) (f : pow_fork) {tx : Type}.
  Implicit Types (chain : pow_chain tx).
  Notation hash := (pow_hash cr).

  (** An ommer of a block with header [h] on top of [chain] *)
  Record valid_ommer chain (h o : pow_header) : Prop := {
    om_age : ph_number o < ph_number h <= ph_number o + 6;
    om_header : acceptable cr k512 f chain o;
    om_parent : exists b, among_last 7 (pc_blocks chain) b /\ ph_parent_hash o = hash (pb_header b);
    om_sibling : ph_parent_hash o <> ph_parent_hash h;
    om_self : hash o <> hash h;
    om_canonical : forall b, among_last 7 (pc_blocks chain) b -> hash o <> hash (pb_header b);
    om_included : forall b o', among_last 7 (pc_blocks chain) b -> In o' (pb_ommers b) ->
      hash o <> hash o';
  }.
  Definition valid_ommers chain (h : pow_header) (ommers : list pow_header) : Prop :=
    ph_ommers_hash h = keccak256 cr (encode (RList (map listed ommers))) /\
    lenN ommers <= 2 /\ NoDup (map hash ommers) /\
    forall o, In o ommers -> valid_ommer chain h o.

  Notation two R o := ((R /\ o = Done tt) \/ (~ R /\ o = Fail FInvalidBlock)).
  Lemma two_check (P : Prop) (b : bool) (k : outcome unit) (R : Prop) : (b = true <-> P) ->
    (R -> P) -> (P -> two R k) -> two R (_ <~ check b ;; k).
  Proof using.
    intros Hb HR Hk. destruct b; cbn [check obind].
    - apply Hk. by apply Hb.
    - right. split; [|done]. intros HR'%HR%Hb. done.
  Qed.
  Lemma two_iff (R R' : Prop) (k : outcome unit) : (R <-> R') -> two R k -> two R' k.
  Proof using. tauto. Qed.

  Lemma ommer_headers_spec chain n ommers :
    digests64 k512 -> n <= 1962270000 -> consecutive (pc_blocks chain) -> pc_blocks chain <> [] ->
    (forall o, In o ommers -> well_typed f chain o) ->
    two (forall o, In o ommers -> 1 <= ph_number o < n /\ acceptable cr k512 f chain o)
      (validate_ommer_headers cr k512 f chain n ommers).
  Proof using.
    intros H64 Hn Hc Hne. induction ommers as [|o ommers IH]; intros Ht; cbn [validate_ommer_headers].
    { left. done. }
    eapply (two_check (1 <= ph_number o)); [apply N.leb_le|intros H; apply H; by left|intros P1].
    eapply (two_check (ph_number o < n)); [apply N.ltb_lt|intros H; apply H; by left|intros P2].
    destruct (C63_header cr k512 f chain o H64) as [[P3 ->]|[P3 ->]]; try done.
    { lia. } { apply Ht. by left. }
    - cbn [obind]. eapply two_iff; [|apply IH; intros; apply Ht; by right]. split.
      + intros H o' [<-|Ho]; [done|by apply H].
      + intros H o' Ho. apply H. by right.
    - cbn [obind]. right. split; [|done]. intros H. apply P3. apply H. by left.
  Qed.

  Lemma ommer_ages_spec chain h ommers :
    (forall o, In o ommers -> ph_number o < ph_number h) ->
    let recent := lastN (MAX_OMMER_DEPTH + 1) (pc_blocks chain) in
    two (forall o, In o ommers ->
           hash o <> hash h /\
           (forall b, among_last 7 (pc_blocks chain) b -> hash o <> hash (pb_header b)) /\
           (forall b o', among_last 7 (pc_blocks chain) b -> In o' (pb_ommers b) -> hash o <> hash o') /\
           ph_number h <= ph_number o + 6 /\
           (exists b, among_last 7 (pc_blocks chain) b /\ ph_parent_hash o = hash (pb_header b)) /\
           ph_parent_hash o <> ph_parent_hash h)
      (validate_ommer_ages cr h (map (fun b => hash (pb_header b)) recent)
         (concat (map (fun b => map hash (pb_ommers b)) recent)) ommers).
  Proof using.
    intros Hnum recent.
    assert (Hrec : forall b, In b recent <-> among_last 7 (pc_blocks chain) b).
    { intros b. apply In_lastN. }
    assert (Hcan : forall x, x ∈ map (fun b => hash (pb_header b)) recent <->
      exists b, among_last 7 (pc_blocks chain) b /\ x = hash (pb_header b)).
    { intros x. rewrite elem_of_list_In, in_map_iff. split.
      - intros (b & <- & Hb). exists b. by rewrite <- Hrec.
      - intros (b & Hb & ->). exists b. by rewrite Hrec. }
    assert (Hinc : forall x, x ∈ concat (map (fun b => map hash (pb_ommers b)) recent) <->
      exists b o', among_last 7 (pc_blocks chain) b /\ In o' (pb_ommers b) /\ x = hash o').
    { intros x. rewrite elem_of_list_In, in_concat. split.
      - intros (l & Hl & Hx). apply in_map_iff in Hl as (b & <- & Hb).
        apply in_map_iff in Hx as (o' & <- & Ho). exists b, o'. by rewrite <- Hrec.
      - intros (b & o' & Hb & Ho & ->). exists (map hash (pb_ommers b)). split.
        + apply in_map_iff. exists b. by rewrite Hrec.
        + apply in_map_iff. by exists o'. }
    revert Hcan Hinc. generalize (map (fun b => hash (pb_header b)) recent) as canonical.
    generalize (concat (map (fun b => map hash (pb_ommers b)) recent)) as included.
    intros included canonical Hcan Hinc. clear Hrec recent.
    induction ommers as [|o ommers IH]; cbn [validate_ommer_ages]; [by left|].
    specialize (IH (fun o Ho => Hnum o (or_intror Ho))).
    eapply (two_check (hash o <> hash h)).
    { rewrite negb_true_iff, <- not_true_iff_false. by rewrite bytes_eqb_eq. }
    { intros H. destruct (H o) as (G & _); [by left|]. done. } intros P1.
    eapply (two_check (hash o ∉ canonical)).
    { rewrite negb_true_iff, bool_decide_eq_false. done. }
    { intros H. rewrite Hcan. intros (b & Hb & E). destruct (H o) as (_ & G & _); [by left|].
      by apply (G b). } intros P2.
    eapply (two_check (hash o ∉ included)).
    { rewrite negb_true_iff, bool_decide_eq_false. done. }
    { intros H. rewrite Hinc. intros (b & o' & Hb & Ho & E).
      destruct (H o) as (_ & _ & G & _); [by left|]. by apply (G b o'). } intros P3.
    assert (ph_number o < ph_number h) as Ho by (apply Hnum; by left).
    rewrite usub_Z by lia. cbn [obind].
    eapply (two_check (1 <= ph_number h - ph_number o)); [apply N.leb_le|lia|intros _].
    eapply (two_check (ph_number h - ph_number o <= 6)); [apply N.leb_le| |].
    { intros H. destruct (H o) as (_ & _ & _ & G & _); [by left|]. lia. } intros P4.
    eapply (two_check (ph_parent_hash o ∈ canonical)).
    { by rewrite bool_decide_eq_true. }
    { intros H. rewrite Hcan. destruct (H o) as (_ & _ & _ & _ & G & _); [by left|]. done. } intros P5.
    eapply (two_check (ph_parent_hash o <> ph_parent_hash h)).
    { rewrite negb_true_iff, <- not_true_iff_false. by rewrite bytes_eqb_eq. }
    { intros H. destruct (H o) as (_ & _ & _ & _ & _ & G); [by left|]. done. } intros P6.
    eapply two_iff; [|apply IH]. split.
    - intros H o' [<-|Ho']; [|by apply H]. split; [done|]. split.
      { intros b Hb E. apply P2, Hcan. eauto. } split.
      { intros b o' Hb Ho' E. apply P3, Hinc. eauto. } split; [lia|]. split; [by apply Hcan|done].
    - intros H o' Ho'. apply H. by right.
  Qed.

  (** The ommers of a block are accepted exactly if they are valid. *)
  Theorem C64_ommers chain h ommers :
    digests64 k512 -> ph_number h <= 1962270000 ->
    consecutive (pc_blocks chain) -> pc_blocks chain <> [] ->
    (forall o, In o ommers -> well_typed f chain o) ->
    two (valid_ommers chain h ommers) (validate_ommers cr k512 f ommers h chain).
  Proof using.
    intros H64 Hn Hc Hne Ht. unfold validate_ommers, valid_ommers.
    eapply (two_check (ph_ommers_hash h = keccak256 cr (encode (RList (map listed ommers))))).
    { rewrite bytes_eqb_eq. done. } { by intros [H _]. } intros P1.
    destruct ommers as [|o0 l] eqn:El.
    { left. split; [|done]. split; [done|]. split; [done|]. split; [constructor|done]. }
    rewrite <- El in *. clear El o0 l.
    destruct (ommer_headers_spec chain (ph_number h) ommers H64 Hn Hc Hne Ht) as [[P2 ->]|[P2 ->]].
    2:{ cbn [obind]. right. split; [|done]. intros (_ & _ & _ & H). apply P2. intros o Ho.
        destruct (H o Ho) as [A1 A2]. destruct A2 as [(b & Hb & A2) A3]. split; [|split; eauto].
        destruct A2. lia. }
    cbn [obind].
    eapply (two_check (lenN ommers <= 2)); [apply N.leb_le|by intros (_ & H & _)|intros P3].
    eapply (two_check (NoDup (map hash ommers))); [apply bool_decide_eq_true|by intros (_ & _ & H & _)|intros P4].
    eapply two_iff; [|apply ommer_ages_spec; intros o Ho; apply P2, Ho]. split.
    - intros H. split_and!; [done..|]. intros o Ho. destruct (H o Ho) as (A1 & A2 & A3 & A4 & A5 & A6).
      destruct (P2 o Ho) as [A7 A8]. constructor; [lia|done..].
    - intros (_ & _ & _ & H) o Ho. destruct (H o Ho) as [B1 B2 B3 B4 B5 B6 B7]. split_and!; [done..|lia|done|done].
  Qed.

  (** In the first block of London, an ommer from before the fork, valid or
      not, ends in AttributeError instead of being judged: its base fee, or
      that of its parent, is asked for. *)
  Theorem C64_london_refuted chain h o ommers b :
    pf_base_fee f = true -> pf_london_block f = Some (ph_number h) ->
    ph_ommers_hash h = keccak256 cr (encode (RList (map listed (o :: ommers)))) ->
    1 <= ph_number o < ph_number h -> ph_gas_used o <= ph_gas_limit o ->
    consecutive (pc_blocks chain) -> In b (pc_blocks chain) ->
    ph_number o = ph_number (pb_header b) + 1 -> ph_base_fee_per_gas (pb_header b) = None ->
    validate_ommers cr k512 f (o :: ommers) h chain = Fail (FCrash AttributeError).
  Proof using.
    intros Hf HL Hh Ho Hg Hc Hb Hnum Hfee. unfold validate_ommers.
    rewrite (proj2 (bytes_eqb_eq _ _)) by (symmetry; exact Hh). cbn [check obind validate_ommer_headers].
    rewrite (proj2 (N.leb_le 1 (ph_number o))), (proj2 (N.ltb_lt (ph_number o) (ph_number h))) by lia.
    cbn [check obind]. unfold validate_header.
    assert (pc_blocks chain <> []) as Hne by (by intros E; rewrite E in Hb).
    destruct (find_parent_spec chain o Hc Hne) as [(i & c & Hi & Hnc & ->)|[Hno _]].
    2:{ destruct (Hno b Hb Hnum). }
    assert (c = b) as ->.
    { destruct (pc_blocks chain) as [|b0 l] eqn:El; [done|].
      destruct (In_nth_error _ _ Hb) as [j Hj].
      pose proof (consecutive_nth _ b0 i c Hc eq_refl Hi) as E1.
      pose proof (consecutive_nth _ b0 j b Hc eq_refl Hj) as E2.
      assert (i = j) as -> by lia. congruence. }
    cbn [obind]. rewrite (proj2 (N.leb_le _ _)) by exact Hg. cbn [check obind].
    unfold validate_fee, base_fee_of. rewrite Hf, HL, bool_decide_false, Hfee by (intros [= E]; lia). done.
  Qed.
End ommers.

(** ** Chains *)
Section chain.
  Context (cr : crypto) (k512 : bytes -> bytes) (f : pow_fork) {tx : Type}.
  Context (execute : pow_chain tx -> pow_header -> list tx -> sm pow_output).
  Implicit Types (chain c : pow_chain tx) (b : pow_block tx) (l : list (pow_block tx)).
  Notation transition := (state_transition cr k512 f execute).
  Notation hash := (pow_hash cr).

  (** All chains that can be built from [c0], with the list of all blocks ever
      accepted (the code keeps the last 255). *)
  Inductive pow_history (c0 : pow_chain tx) : pow_chain tx -> list (pow_block tx) -> Prop :=
  | ph_start : pow_history c0 c0 (pc_blocks c0)
  | ph_accept c l b c' : pow_history c0 c l -> transition c b = (Done tt, c') ->
      pow_history c0 c' (l ++ [b])
  | ph_reject c l b e c' : pow_history c0 c l -> transition c b = (Fail e, c') ->
      pow_history c0 c' l.

  Lemma transition_done c b c' : transition c b = (Done tt, c') ->
    validate_header cr k512 f c (pb_header b) = Done tt /\
    validate_ommers cr k512 f (pb_ommers b) (pb_header b) c = Done tt /\
    (exists output, apply_body f execute c b (pc_state c) = (Done output, pc_state c') /\
      po_gas_used output = ph_gas_used (pb_header b) /\
      po_transactions_root output = ph_transactions_root (pb_header b) /\
      state_root cr (pc_state c') = Some (ph_state_root (pb_header b)) /\
      po_receipt_root output = ph_receipt_root (pb_header b) /\
      po_bloom output = ph_bloom (pb_header b)) /\
    pc_chain_id c' = pc_chain_id c /\ pc_blocks c' = lastN 255 (pc_blocks c ++ [b]).
  Proof using.
    unfold state_transition.
    destruct (validate_header cr k512 f c (pb_header b)) as [[]|] eqn:E1; cbn [obind]; [|done].
    destruct (validate_ommers cr k512 f (pb_ommers b) (pb_header b) c) as [[]|] eqn:E2; [|done].
    destruct (apply_body f execute c b (pc_state c)) as [[output|e] s] eqn:E3; [|done].
    destruct (state_root cr s) as [r|] eqn:E4; cbn [of_option obind]; [|done].
    destruct (_ <~ check _ ;; _) as [[]|] eqn:E5; [|done].
    intros H. assert (c' = PowChain (if 255 <? lenN (pc_blocks c ++ [b]) then lastN 255 (pc_blocks c ++ [b])
      else pc_blocks c ++ [b]) s (pc_chain_id c)) as -> by congruence.
    cbn [pc_state pc_blocks pc_chain_id].
    apply obind_inv in E5 as ([] & C1%check_inv%N.eqb_eq & E5).
    apply obind_inv in E5 as ([] & C2%check_inv%bytes_eqb_eq & E5).
    apply obind_inv in E5 as ([] & C3%check_inv%bytes_eqb_eq & E5).
    apply obind_inv in E5 as ([] & C4%check_inv%bytes_eqb_eq & E5).
    apply check_inv, bytes_eqb_eq in E5.
    split_and!; try done; [exists output; split_and!; congruence|].
    destruct (N.ltb_spec 255 (lenN (pc_blocks c ++ [b]))); [done|]. symmetry. by apply lastN_short.
  Qed.
  Lemma transition_fail c b e c' : transition c b = (Fail e, c') ->
    pc_blocks c' = pc_blocks c /\ pc_chain_id c' = pc_chain_id c.
  Proof using.
    unfold state_transition.
    destruct (_ <~ validate_header _ _ _ _ _ ;; _) as [[]|]; [|intros [= _ <-]; done].
    destruct (apply_body f execute c b (pc_state c)) as [[output|e'] s]; [|intros [= _ <-]; done].
    destruct (_ <~ of_option _ _ ;; _) as [[]|]; [done|]. intros [= _ <-]; done.
  Qed.

  Lemma retained c0 c l : lenN (pc_blocks c0) <= 255 -> pow_history c0 c l ->
    pc_blocks c = lastN 255 l.
  Proof using.
    intros H0. induction 1 as [|c l b c' _ IH E|c l b e c' _ IH E].
    - by rewrite lastN_short.
    - apply transition_done in E as (_ & _ & _ & _ & Eb). by rewrite Eb, IH, lastN_app_lastN.
    - apply transition_fail in E as [Eb _]. congruence.
  Qed.

  Lemma history_prefix c0 c l : pow_history c0 c l -> exists m, l = pc_blocks c0 ++ m.
  Proof using.
    induction 1 as [|c l b c' _ IH _|c l b e c' _ IH _]; [by exists []; rewrite app_nil_r| |done].
    destruct IH as [m ->]. exists (m ++ [b]). by rewrite app_assoc.
  Qed.

  (** What acceptance of a header says without conditions on its types *)
  Lemma accepted_header c h : consecutive (pc_blocks c) -> validate_header cr k512 f c h = Done tt ->
    exists b, In b (pc_blocks c) /\ ph_number h = ph_number (pb_header b) + 1 /\
      ph_parent_hash h = hash (pb_header b) /\ ph_timestamp (pb_header b) < ph_timestamp h /\
      ph_gas_used h <= ph_gas_limit h /\ lenN (ph_extra_data h) <= 32 /\
      validate_fee f h (pb_header b) = Done tt /\
      calculate_block_difficulty (pf_rule f) (ph_number h) (ph_timestamp h)
        (ph_timestamp (pb_header b)) (ph_difficulty (pb_header b)) (has_ommers cr (pb_header b))
        = Done (ph_difficulty h) /\
      validate_dao f h = Done tt /\ validate_proof_of_work cr k512 h = Done tt.
  Proof using.
    intros Hc H. unfold validate_header in H.
    destruct (pc_blocks c) as [|b0 l] eqn:El.
    { unfold find_parent in H. rewrite El in H. destruct (1 <=? ph_number h); done. }
    rewrite <- El in *.
    destruct (find_parent_spec c h Hc) as [(i & b & Hi & Hn & E)|[_ E]]; rewrite ?E in H.
    { congruence. }
    2:{ done. }
    cbn [obind] in H.
    apply obind_inv in H as ([] & C1%check_inv%N.leb_le & H).
    apply obind_inv in H as ([] & C2 & H).
    apply obind_inv in H as ([] & C3%check_inv%N.ltb_lt & H).
    apply obind_inv in H as ([] & C4%check_inv%N.eqb_eq & H).
    apply obind_inv in H as ([] & C5%check_inv%N.leb_le & H).
    apply obind_inv in H as (d & C6 & H).
    apply obind_inv in H as ([] & C7%check_inv%N.eqb_eq & H).
    apply obind_inv in H as ([] & C8%check_inv%bytes_eqb_eq & H).
    apply obind_inv in H as ([] & C9 & H). subst d.
    exists b. split_and!; try done. by eapply nth_error_In.
  Qed.

  Lemma accepted_ommers c h ommers : validate_ommers cr k512 f ommers h c = Done tt ->
    ph_ommers_hash h = keccak256 cr (encode (RList (map listed ommers))) /\
    lenN ommers <= 2 /\ NoDup (map hash ommers) /\
    (forall o, In o ommers -> 1 <= ph_number o < ph_number h /\ validate_header cr k512 f c o = Done tt) /\
    forall o, In o ommers ->
           hash o <> hash h /\
           (forall b, among_last 7 (pc_blocks c) b -> hash o <> hash (pb_header b)) /\
           (forall b o', among_last 7 (pc_blocks c) b -> In o' (pb_ommers b) -> hash o <> hash o') /\
           ph_number h <= ph_number o + 6 /\
           (exists b, among_last 7 (pc_blocks c) b /\ ph_parent_hash o = hash (pb_header b)) /\
           ph_parent_hash o <> ph_parent_hash h.
  Proof using.
    unfold validate_ommers. intros H. apply obind_inv in H as ([] & C1%check_inv%bytes_eqb_eq & H).
    split; [done|]. destruct ommers as [|o0 l] eqn:El.
    { split; [done|]. split; [constructor|]. done. }
    rewrite <- El in *. clear El o0 l.
    apply obind_inv in H as ([] & C2 & H).
    apply obind_inv in H as ([] & C3%check_inv%N.leb_le & H).
    apply obind_inv in H as ([] & C4%check_inv%bool_decide_eq_true & H).
    split; [done|]. split; [done|].
    assert (C5 : forall o, In o ommers -> 1 <= ph_number o < ph_number h /\
      validate_header cr k512 f c o = Done tt).
    { clear -C2. induction ommers as [|o ommers IH]; [done|]. cbn [validate_ommer_headers] in C2.
      apply obind_inv in C2 as ([] & D1%check_inv%N.leb_le & C2).
      apply obind_inv in C2 as ([] & D2%check_inv%N.ltb_lt & C2).
      apply obind_inv in C2 as ([] & D3 & C2). intros o' [<-|Ho]; [done|by apply IH]. }
    split; [done|].
    destruct (ommer_ages_spec cr c h ommers) as [[A _]|[_ A]].
    - intros o Ho. apply C5, Ho.
    - exact A.
    - cbv zeta in A. rewrite A in H. done.
  Qed.

  (** ** Histories *)
  Lemma consecutive_drop n l : consecutive l -> consecutive (drop n l).
  Proof using. intros H i b c Hb Hc'. rewrite nth_error_drop in Hb, Hc'. apply (H (n + i)%nat b c); [done|].
    by replace (S (n + i)) with (n + S i)%nat by lia. Qed.
  Lemma consecutive_prefix l m : consecutive (l ++ m) -> consecutive l.
  Proof using.
    intros H i b c Hb Hc'. apply (H i b c); rewrite nth_error_app1; try done; apply nth_error_Some; congruence.
  Qed.
  Lemma consecutive_diff l i j b b' : consecutive l -> nth_error l i = Some b -> nth_error l j = Some b' ->
    (Z.of_N (ph_number (pb_header b')) - Z.of_N (ph_number (pb_header b)) = Z.of_nat j - Z.of_nat i)%Z.
  Proof using.
    intros H Hb Hc'. destruct l as [|b0 l]; [by destruct i|].
    rewrite (consecutive_nth _ b0 i b H eq_refl Hb), (consecutive_nth _ b0 j b' H eq_refl Hc'). lia.
  Qed.

  (** Every block of the history, from the initial ones on, was accepted on
      top of the blocks before it. *)
  Lemma history_accepted c0 c l j b : lenN (pc_blocks c0) <= 255 -> pow_history c0 c l ->
    nth_error l j = Some b -> (length (pc_blocks c0) <= j)%nat ->
    exists c1 c2, transition c1 b = (Done tt, c2) /\ pc_blocks c1 = lastN 255 (firstn j l).
  Proof using.
    intros H0. induction 1 as [|c l b' c' Hh IH E|c l b' e c' _ IH E]; intros Hj Hlen.
    - assert (j < length (pc_blocks c0))%nat by (apply nth_error_Some; congruence). lia.
    - destruct (Nat.lt_ge_cases j (length l)) as [Hl|Hl].
      + rewrite nth_error_app1 in Hj by done. rewrite take_app_le by lia. by apply IH.
      + assert (j < length (l ++ [b']))%nat as Hjl by (apply nth_error_Some; congruence).
        rewrite app_length in Hjl. cbn [length] in Hjl. assert (j = length l) as -> by lia.
        rewrite nth_error_app2, Nat.sub_diag in Hj by lia.
        assert (b' = b) as -> by (cbn in Hj; congruence).
        exists c, c'. split; [done|]. rewrite take_app. by eapply retained.
    - by apply IH.
  Qed.

  Lemma recent_index l j b : (j <= length l)%nat ->
    among_last 7 (lastN 255 (firstn j l)) b <->
    exists i, nth_error l i = Some b /\ (i < j <= i + 7)%nat.
  Proof using.
    intros Hj. rewrite !among_last_nth. unfold lastN. rewrite dropN_skipn. unfold lenN.
    rewrite skipn_length. rewrite firstn_length, Nat.min_l by done. split.
    - intros (i & E & Hi). rewrite nth_error_drop in E.
      assert (N.to_nat (N.of_nat j - 255) + i < j)%nat.
      { assert (N.to_nat (N.of_nat j - 255) + i < length (firstn j l))%nat as G.
        { apply nth_error_Some. congruence. } rewrite firstn_length in G. lia. }
      rewrite nth_error_firstn in E.
      rewrite (proj2 (Nat.ltb_lt _ _)) in E by done.
      eexists. split; [exact E|]. lia.
    - intros (i & E & Hi). exists (i - N.to_nat (N.of_nat j - 255))%nat. split; [|lia].
      rewrite nth_error_drop.
      replace (N.to_nat (N.of_nat j - 255) + (i - N.to_nat (N.of_nat j - 255)))%nat with i by lia.
      rewrite nth_error_firstn. by rewrite (proj2 (Nat.ltb_lt _ _)) by lia.
  Qed.

  Context (c0 : pow_chain tx) (c : pow_chain tx) (l : list (pow_block tx)).
  Hypothesis Hstart : lenN (pc_blocks c0) <= 255.
  Hypothesis Hhistory : pow_history c0 c l.
  (** Each block was put on top of the last one; see C63_tip_refuted *)
  Hypothesis Hconsecutive : consecutive l.

  (** An accepted block follows the one before it. *)
  Theorem C63_linked j b : nth_error l (S j) = Some b -> (length (pc_blocks c0) <= S j)%nat ->
    exists p, nth_error l j = Some p /\
      ph_number (pb_header b) = ph_number (pb_header p) + 1 /\
      ph_parent_hash (pb_header b) = hash (pb_header p) /\
      ph_timestamp (pb_header p) < ph_timestamp (pb_header b) /\
      calculate_block_difficulty (pf_rule f) (ph_number (pb_header b)) (ph_timestamp (pb_header b))
        (ph_timestamp (pb_header p)) (ph_difficulty (pb_header p)) (has_ommers cr (pb_header p))
        = Done (ph_difficulty (pb_header b)) /\
      ph_gas_used (pb_header b) <= ph_gas_limit (pb_header b) /\
      validate_fee f (pb_header b) (pb_header p) = Done tt /\
      validate_proof_of_work cr k512 (pb_header b) = Done tt.
  Proof using Hstart Hhistory Hconsecutive.
    intros Hb Hj. destruct (history_accepted c0 c l (S j) b Hstart Hhistory Hb Hj) as (c1 & c2 & Ht & Hbl).
    apply transition_done in Ht as (Hv & _).
    assert (Hcons : consecutive (pc_blocks c1)).
    { rewrite Hbl. unfold lastN. rewrite dropN_skipn. apply consecutive_drop.
      apply (consecutive_prefix _ (skipn (S j) l)). by rewrite firstn_skipn. }
    apply accepted_header in Hv as (p & Hp & H1 & H2 & H3 & H4 & H5 & H6 & H7 & H8 & H9); [|done].
    exists p. assert (nth_error l j = Some p) as Hjp; [|done].
    rewrite Hbl in Hp. unfold lastN in Hp. rewrite dropN_skipn in Hp.
    apply In_nth_error in Hp as [i Hi]. rewrite nth_error_drop, nth_error_firstn in Hi.
    destruct (Nat.ltb_spec (N.to_nat (lenN (take (S j) l) - 255) + i) (S j)) as [Hlt|]; [|done].
    pose proof (consecutive_diff _ _ _ _ _ Hconsecutive Hi Hb). rewrite <- Hi. f_equal. lia.
  Qed.

  (** An ommer included in block [j] is at most six blocks older; it follows a
      block of the history, but is not in the history itself, and was not
      included before. *)
  Theorem C64_history j b o : nth_error l j = Some b -> (length (pc_blocks c0) <= j)%nat ->
    In o (pb_ommers b) ->
    (forall b0 o0, In b0 (pc_blocks c0) -> In o0 (pb_ommers b0) ->
       ph_number o0 < ph_number (pb_header b0)) ->
    (exists age i p, 1 <= age <= 6 /\ ph_number (pb_header b) = ph_number o + age /\
       nth_error l i = Some p /\ ph_number o = ph_number (pb_header p) + 1 /\
       ph_parent_hash o = hash (pb_header p)) /\
    (forall b', In b' l -> pb_header b' <> o) /\
    (forall i b', nth_error l i = Some b' -> i <> j -> ~ In o (pb_ommers b')) /\
    lenN (pb_ommers b) <= 2 /\ NoDup (pb_ommers b).
  Proof using Hstart Hhistory Hconsecutive.
    intros Hb Hj Ho H0.
    assert (Hlen : (j <= length l)%nat).
    { assert (j < length l)%nat by (apply nth_error_Some; congruence). lia. }
    (* what holds for every accepted block *)
    assert (Hacc : forall j b, nth_error l j = Some b -> (length (pc_blocks c0) <= j)%nat ->
      (j <= length l)%nat /\
      exists c1, pc_blocks c1 = lastN 255 (firstn j l) /\ consecutive (pc_blocks c1) /\
        validate_ommers cr k512 f (pb_ommers b) (pb_header b) c1 = Done tt).
    { intros j' b' Hb' Hj'. split.
      { assert (j' < length l)%nat by (apply nth_error_Some; congruence). lia. }
      destruct (history_accepted c0 c l j' b' Hstart Hhistory Hb' Hj') as (c1 & c2 & Ht & Hbl).
      apply transition_done in Ht as (_ & Hv & _). exists c1. split; [done|]. split; [|done].
      rewrite Hbl. unfold lastN. rewrite dropN_skipn. apply consecutive_drop.
      apply (consecutive_prefix _ (skipn j' l)). by rewrite firstn_skipn. }
    assert (Hold : forall i b' o', nth_error l i = Some b' -> In o' (pb_ommers b') ->
      ph_number o' < ph_number (pb_header b')).
    { intros i b' o' Hi Ho'. destruct (Nat.lt_ge_cases i (length (pc_blocks c0))) as [Hi0|Hi0].
      - apply (H0 b'); [|done].
        assert (exists m, l = pc_blocks c0 ++ m) as [m Em].
        { by eapply history_prefix. }
        rewrite Em, nth_error_app1 in Hi by done. by eapply nth_error_In.
      - destruct (Hacc i b' Hi Hi0) as (_ & c1 & _ & _ & Hv).
        apply accepted_ommers in Hv as (_ & _ & _ & Hv & _). apply Hv, Ho'. }
    destruct (Hacc j b Hb Hj) as (_ & c1 & Hbl & Hcons & Hv).
    apply accepted_ommers in Hv as (_ & V1 & V2 & V3 & V4).
    destruct (V3 o Ho) as [W1 W2]. destruct (V4 o Ho) as (X1 & X2 & X3 & X4 & X5 & X6).
    rewrite Hbl in X2, X3, X5.
    split; [|split; [|split; [|split]]].
    - apply accepted_header in W2 as (p & Hp & Y1 & Y2 & _); [|done].
      rewrite Hbl in Hp. unfold lastN in Hp. rewrite dropN_skipn in Hp.
      apply In_nth_error in Hp as [i Hi]. rewrite nth_error_drop, nth_error_firstn in Hi.
      destruct (Nat.ltb_spec (N.to_nat (lenN (take j l) - 255) + i) j); [|done].
      exists (ph_number (pb_header b) - ph_number o), (N.to_nat (lenN (take j l) - 255) + i)%nat, p.
      split; [lia|]. split; [lia|]. done.
    - intros b' Hb' E. apply In_nth_error in Hb' as [i Hi].
      pose proof (consecutive_diff _ _ _ _ _ Hconsecutive Hi Hb) as Hd. rewrite E in Hd.
      apply (X2 b'); [|by rewrite E]. apply recent_index; [done|]. exists i. split; [done|]. lia.
    - intros i b' Hi Hij Hin.
      pose proof (consecutive_diff _ _ _ _ _ Hconsecutive Hi Hb) as Hd.
      pose proof (Hold i b' o Hi Hin) as Hn.
      destruct (Nat.lt_ge_cases i j) as [Hlt|Hge].
      + apply (X3 b' o); [|done|done]. apply recent_index; [done|]. exists i. split; [done|].
        lia.
      + assert (j < i)%nat as Hlt by lia.
        destruct (Hacc i b' Hi) as (Hil & c2 & Hbl2 & _ & Hv2); [lia|].
        apply accepted_ommers in Hv2 as (_ & _ & _ & _ & Z4).
        destruct (Z4 o Hin) as (_ & _ & Z3 & Z5 & _). rewrite Hbl2 in Z3.
        apply (Z3 b o); [|done|done]. apply recent_index; [done|]. exists j. split; [done|]. lia.
    - done.
    - clear -V2. revert V2. induction (pb_ommers b) as [|x m IH]; intros H; [constructor|].
      cbn [map] in H. apply NoDup_cons in H as [H1 H2]. constructor; [|by apply IH].
      intros Hx. apply H1. apply elem_of_list_In, in_map, elem_of_list_In, Hx.
  Qed.
End chain.
