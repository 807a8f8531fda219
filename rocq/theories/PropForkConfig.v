(** * PropForkConfig: a loaded schedule makes the right fork active (C94) *)
From Verif Require Import Base ForkCriteria ForkConfig PropForks.
From Coq Require Import ZifyBool ZifyN ZifyNat Sorting.Sorted.

Global Instance fork_criteria_eq_dec : EqDecision fork_criteria.
Proof. solve_decision. Defined.

Section load.
  Context {name : Type} `{EqDecision name}.
  Implicit Types (l d : list (fork_criteria * name)) (c : fork_criteria) (x : name).

  (** The last entry for [c] is [x]. *)
  Definition last_for l c x : Prop :=
    exists pre post, l = pre ++ (c, x) :: post /\ Forall (fun e => fst e <> c) post.
  (** The last fork of [l] that is reached is [x]. *)
  Definition in_force l (n t : N) x : Prop :=
    exists pre c post, l = pre ++ (c, x) :: post /\ reached c n t /\ Forall (fun e => ~ reached (fst e) n t) post.

  Lemma eqb_criteria a b : fc_eq a b = true <-> a = b.
  Proof using. apply C45_order. Qed.
  Lemma ltb_criteria a b : fc_lt a b = true <-> before a b.
  Proof using. apply C45_order. Qed.

  Lemma dict_set_keys d c x : NoDup (map fst d) -> NoDup (map fst (dict_set d c x)).
  Proof using.
    induction d as [|[c' x'] d IH]; cbn; intros Hd.
    { apply NoDup_singleton. }
    apply NoDup_cons in Hd as [H1 H2].
    assert (G : forall k, k ∈ map fst (dict_set d c x) -> k = c \/ k ∈ map fst d).
    { clear. induction d as [|[c' x'] d IH]; intros k; cbn; [rewrite elem_of_list_singleton; auto|].
      destruct (fc_eq c' c); cbn; rewrite !elem_of_cons; [tauto|]. intros [?|Hk]; [tauto|]. apply IH in Hk. tauto. }
    destruct (fc_eq c' c) eqn:E; cbn; apply NoDup_cons; [done|]. split; [|by apply IH].
    intros Hk. apply G in Hk as [->|Hk]; [|done]. rewrite (proj2 (eqb_criteria c c)) in E by done. done.
  Qed.
  Lemma dict_set_in d c x c' x' : NoDup (map fst d) ->
    (c', x') ∈ dict_set d c x <-> (c' = c /\ x' = x) \/ (c' <> c /\ (c', x') ∈ d).
  Proof using.
    induction d as [|[k y] d IH]; cbn; intros Hd.
    { rewrite elem_of_list_singleton. rewrite elem_of_nil. split; [intros [= -> ->]; tauto|]. intros [[-> ->]|[]]; done. }
    apply NoDup_cons in Hd as [H1 H2].
    assert (Hk : forall z, (k, z) ∉ d).
    { intros z Hz. apply H1. apply elem_of_list_fmap. by exists (k, z). }
    destruct (fc_eq k c) eqn:E.
    - apply eqb_criteria in E as ->. rewrite !elem_of_cons. split.
      + intros [[= -> ->]|Hin]; [tauto|]. right. split; [|tauto]. intros ->. by eapply Hk.
      + intros [[-> ->]|[Hne [[= -> ->]|Hin]]]; tauto.
    - assert (k <> c). { intros ->. rewrite (proj2 (eqb_criteria c c)) in E by done. done. }
      rewrite !elem_of_cons, IH by done. split.
      + intros [[= -> ->]|[[-> ->]|[? ?]]]; tauto.
      + intros [[-> ->]|[? [[= -> ->]|?]]]; tauto.
  Qed.
  Lemma dict_set_names d c x : x ∉ map snd d -> NoDup (map snd d) -> NoDup (map snd (dict_set d c x)) /\
    forall y, y ∈ map snd (dict_set d c x) -> y = x \/ y ∈ map snd d.
  Proof using.
    induction d as [|[k y] d IH]; cbn; intros Hx Hd.
    { split; [apply NoDup_singleton|]. intros y. rewrite elem_of_list_singleton. auto. }
    apply NoDup_cons in Hd as [H1 H2]. rewrite not_elem_of_cons in Hx. destruct Hx as [Hx1 Hx2].
    destruct (fc_eq k c); cbn.
    - split; [by apply NoDup_cons|]. intros z. rewrite !elem_of_cons. tauto.
    - destruct (IH Hx2 H2) as [J1 J2]. split.
      + apply NoDup_cons. split; [|done]. intros [?|?]%J2; congruence.
      + intros z. rewrite !elem_of_cons. intros [?|?%J2]; tauto.
  Qed.

  Lemma dict_of_snoc l c x : dict_of (l ++ [(c, x)]) = dict_set (dict_of l) c x.
  Proof using. unfold dict_of. by rewrite fold_left_app. Qed.
  Lemma dict_of_keys l : NoDup (map fst (dict_of l)).
  Proof using.
    induction l as [|[c x] l IH] using rev_ind; [constructor|]. rewrite dict_of_snoc. by apply dict_set_keys.
  Qed.
  Lemma dict_of_names l : NoDup (map snd l) -> NoDup (map snd (dict_of l)) /\
    forall y, y ∈ map snd (dict_of l) -> y ∈ map snd l.
  Proof using.
    induction l as [|[c x] l IH] using rev_ind; intros Hd; [split; [constructor|done]|].
    rewrite map_app in Hd. cbn in Hd. apply NoDup_app in Hd as (H1 & H2 & _).
    destruct (IH H1) as [J1 J2]. rewrite dict_of_snoc.
    destruct (dict_set_names (dict_of l) c x) as [K1 K2]; [|done|].
    { intros Hx%J2. apply H2 in Hx. by rewrite elem_of_list_singleton in Hx. }
    split; [done|]. intros y. rewrite map_app, elem_of_app. cbn. rewrite elem_of_list_singleton.
    intros [?|?%J2]%K2; tauto.
  Qed.
  Lemma dict_of_in l c x : (c, x) ∈ dict_of l <-> last_for l c x.
  Proof using.
    induction l as [|[k y] l IH] using rev_ind.
    { split; [by rewrite elem_of_nil|]. intros (pre & post & H & _). by destruct pre. }
    rewrite dict_of_snoc, dict_set_in by apply dict_of_keys. rewrite IH. split.
    - intros [[-> ->]|[Hne (pre & post & -> & Hp)]].
      + by exists l, [].
      + exists pre, (post ++ [(k, y)]). split; [by rewrite <- app_assoc|]. apply Forall_app. split; [done|].
        repeat constructor. cbn. congruence.
    - intros (pre & post & He & Hp). destruct post as [|[k' y'] post _] using rev_ind.
      + apply app_inj_tail in He as [-> [= -> ->]]. by left.
      + rewrite app_comm_cons, app_assoc in He. apply app_inj_tail in He as [-> [= -> ->]].
        apply Forall_app in Hp as [Hp1 Hp2]. apply Forall_inv in Hp2. cbn in Hp2. right. split; [congruence|].
        by exists pre, post.
  Qed.

  Lemma before_trans a b c : before a b -> before b c -> before a c.
  Proof using. apply C45_total_order. Qed.
  Lemma insert_by_spec c x l : StronglySorted before (map fst l) -> c ∉ map fst l ->
    StronglySorted before (map fst (insert_by (c, x) l)) /\ insert_by (c, x) l ≡ₚ (c, x) :: l.
  Proof using.
    induction l as [|[k y] l IH]; cbn; intros Hs Hc; [split; [repeat constructor|done]|].
    rewrite not_elem_of_cons in Hc. destruct Hc as [Hc1 Hc2]. apply StronglySorted_inv in Hs as [Hs Hf].
    destruct (fc_lt c k) eqn:E; cbn.
    - apply ltb_criteria in E. split; [|done]. constructor; [by constructor|]. constructor; [done|].
      eapply Forall_impl; [exact Hf|]. intros z. by apply before_trans.
    - destruct (IH Hs Hc2) as [J1 J2]. split.
      + constructor; [done|]. rewrite J2. cbn. constructor; [|done].
        destruct (C45_total_order c k c) as (_ & _ & [Hb|[Hb|Hb]]); [|done|done].
        apply ltb_criteria in Hb. congruence.
      + rewrite J2. constructor.
  Qed.
  Lemma sorted_items_spec d : NoDup (map fst d) ->
    StronglySorted before (map fst (sorted_items d)) /\ sorted_items d ≡ₚ d.
  Proof using.
    induction d as [|[c x] d IH] using rev_ind; intros Hd; [split; [constructor|done]|].
    rewrite map_app in Hd. cbn in Hd. apply NoDup_app in Hd as (H1 & H2 & _). destruct (IH H1) as [J1 J2].
    unfold sorted_items. rewrite fold_left_app. cbn [fold_left]. fold (sorted_items d).
    destruct (insert_by_spec c x (sorted_items d)) as [K1 K2]; [done| |].
    { rewrite J2. intros Hc%H2. by rewrite elem_of_list_singleton in Hc. }
    split; [done|]. rewrite K2, J2. by rewrite Permutation_cons_append.
  Qed.

  Lemma module_criteria_other l x c : x ∉ map snd l -> module_criteria l x c = c.
  Proof using.
    unfold module_criteria. induction l as [|[k y] l IH]; cbn; intros Hx; [done|].
    rewrite not_elem_of_cons in Hx. rewrite decide_False by naive_solver. apply IH. tauto.
  Qed.
  Lemma module_criteria_own l x c c' : NoDup (map snd l) -> (c, x) ∈ l -> module_criteria l x c' = c.
  Proof using.
    revert c'. induction l as [|[k y] l IH]; cbn; intros c' Hd Hin; [by apply elem_of_nil in Hin|].
    apply NoDup_cons in Hd as [H1 H2]. unfold module_criteria. cbn [fold_left fst snd].
    apply elem_of_cons in Hin as [[= -> ->]|Hin].
    - rewrite decide_True by done. by apply module_criteria_other.
    - apply IH; done.
  Qed.
  Lemma load_distinct d : NoDup (map fst d) -> NoDup (map snd d) -> load d = sorted_items d.
  Proof using.
    intros Hk Hn. destruct (sorted_items_spec d Hk) as [_ HP]. unfold load.
    assert (Hn' : NoDup (map snd (sorted_items d))) by (by rewrite HP).
    rewrite <- map_id. apply map_ext_in. intros [c x] Hin%elem_of_list_In. cbn [fst snd].
    by rewrite (module_criteria_own _ x c).
  Qed.

  (** The loaded forks are in strictly increasing order, and they are the last
      fork of the configuration for each criterion. *)
  Theorem C94_load l : NoDup (map snd l) ->
    StronglySorted before (map fst (load (dict_of l))) /\
    forall c x, (c, x) ∈ load (dict_of l) <-> last_for l c x.
  Proof using.
    intros Hn. pose proof (dict_of_keys l) as Hk. destruct (dict_of_names l Hn) as [Hn' _].
    destruct (sorted_items_spec _ Hk) as [Hs HP]. rewrite load_distinct by done. split; [done|].
    intros c x. by rewrite HP, dict_of_in.
  Qed.

  (** In general a module has one criterion, also if the dictionary names it
      twice: the latest. *)
  Lemma module_criteria_latest l x c0 : StronglySorted before (map fst l) -> x ∈ map snd l ->
    (module_criteria l x c0, x) ∈ l /\
    forall c, (c, x) ∈ l -> before c (module_criteria l x c0) \/ c = module_criteria l x c0.
  Proof using.
    revert c0. induction l as [|[k y] l IH]; cbn [map fst snd]; intros c0 Hs Hx; [by apply elem_of_nil in Hx|].
    apply StronglySorted_inv in Hs as [Hs Hf]. unfold module_criteria. cbn [fold_left fst snd].
    fold (module_criteria l x (if decide (y = x) then k else c0)).
    destruct (decide (x ∈ map snd l)) as [Hl|Hl].
    - destruct (IH (if decide (y = x) then k else c0) Hs Hl) as [J1 J2]. split; [by right|].
      intros c [[= -> ->]|Hc]%elem_of_cons; [|by apply J2]. left. rewrite List.Forall_forall in Hf. apply Hf.
      apply in_map_iff. eexists. split; [|by apply elem_of_list_In]. done.
    - apply elem_of_cons in Hx as [->|Hx]; [|done]. rewrite module_criteria_other by done.
      rewrite decide_True by done. split; [by left|]. intros c [[= ->]|Hc]%elem_of_cons; [by right|].
      exfalso. apply Hl. apply elem_of_list_fmap. by exists (c, y).
  Qed.
  Theorem C94_latest d c x : NoDup (map fst d) -> (c, x) ∈ load d ->
    (c, x) ∈ d /\ forall c', (c', x) ∈ d -> before c' c \/ c' = c.
  Proof using.
    intros Hk Hin. destruct (sorted_items_spec d Hk) as [Hs HP]. unfold load in Hin.
    apply elem_of_list_fmap in Hin as ([c1 x1] & [= -> ->] & Hin).
    destruct (module_criteria_latest (sorted_items d) x1 c1 Hs) as [J1 J2].
    { apply elem_of_list_fmap. by exists (c1, x1). }
    assert (HI : forall e, e ∈ sorted_items d <-> e ∈ d) by (intros e; by rewrite HP).
    split; [by apply HI|]. intros c' Hc'. apply J2. by apply HI.
  Qed.

  Lemma sorted_nth L i j a b : StronglySorted before L -> nth_error L i = Some a -> nth_error L j = Some b ->
    (i < j)%nat -> before a b.
  Proof using.
    intros HS. revert i j. induction HS as [|y L HS IH HF]; intros i j; [by destruct i|].
    destruct i as [|i], j as [|j]; cbn; intros Hi Hj Hlt; try lia.
    - injection Hi as <-. rewrite List.Forall_forall in HF. apply HF. by eapply nth_error_In.
    - eapply IH; [exact Hi|exact Hj|lia].
  Qed.

  (** If the configuration begins at block 0, and never goes back, the active
      fork is the last one reached, also if several forks begin at once. *)
  Theorem C94_active l n t x0 l' m i0 : l = (ByBlockNumber 0, x0) :: l' -> NoDup (map snd l) ->
    StronglySorted (fun a b => before a b \/ a = b) (map fst l) ->
    (forall b u, ByBlockNumber b ∈ map fst l -> ByTimestamp u ∈ map fst l -> u <= t -> b <= n) ->
    forall x, nth_error (map snd (load (dict_of l)))
                (ft_active_fork_index (set_block (ForkTracking (map fst (load (dict_of l))) m i0) n t)) = Some x
              <-> in_force l n t x.
  Proof using.
    intros El Hn Hw HK. destruct (C94_load l Hn) as [HS HI]. set (L := load (dict_of l)) in *.
    set (r := ft_active_fork_index _).
    assert (HA : forall i c, nth_error (map fst L) i = Some c -> (i <= r)%nat <-> i = 0%nat \/ reached c n t).
    { intros i c Hi. apply (C45_active (ForkTracking (map fst L) m i0)); [done| |done]. cbn [ft_forks].
      intros b u Hb Hu. apply HK.
      - apply elem_of_list_In, elem_of_list_fmap in Hb as ([c1 x1] & -> & Hin). apply HI in Hin as (pre & post & -> & _).
        rewrite map_app. apply elem_of_app. right. by left.
      - apply elem_of_list_In, elem_of_list_fmap in Hu as ([c1 x1] & -> & Hin). apply HI in Hin as (pre & post & -> & _).
        rewrite map_app. apply elem_of_app. right. by left. }
    assert (Hlast : forall c, c ∈ map fst l -> exists x, last_for l c x).
    { clear. induction l as [|[k y] l IH] using rev_ind; intros c Hc; [by apply elem_of_nil in Hc|].
      destruct (decide (k = c)) as [->|Hne]; [exists y, l, []; done|].
      rewrite map_app, elem_of_app in Hc. cbn in Hc. rewrite elem_of_list_singleton in Hc.
      destruct Hc as [Hc|Hc]; [|congruence]. destruct (IH c Hc) as (x & pre & post & -> & Hp).
      exists x, pre, (post ++ [(k, y)]). split; [by rewrite <- app_assoc|]. apply Forall_app. split; [done|].
      by repeat constructor. }
    assert (Hr : exists c x, nth_error L r = Some (c, x)).
    { assert (r < length L)%nat.
      { destruct (C45_set_block (ForkTracking (map fst L) m i0) n t) as (_ & _ & [H|[H _]]); cbn [ft_forks] in H.
        - fold r in H. by rewrite map_length in H.
        - exfalso. destruct (Hlast (ByBlockNumber 0)) as [x Hx]; [rewrite El; by left|].
          apply HI in Hx. destruct L; [by apply elem_of_nil in Hx|done]. }
      destruct (nth_error L r) as [[c x]|] eqn:E; [by exists c, x|]. apply nth_error_None in E. lia. }
    destruct Hr as (c & x & Hr). assert (Hin : (c, x) ∈ L) by (apply elem_of_list_In; by eapply nth_error_In).
    assert (Hrc : nth_error (map fst L) r = Some c) by (by rewrite nth_error_map, Hr).
    assert (Hreach : reached c n t).
    { destruct (HA r c Hrc) as [[H0|H] _]; [lia| |done].
      (* the first fork begins at block 0 *)
      destruct (Hlast (ByBlockNumber 0)) as [z Hz]; [rewrite El; by left|]. apply HI in Hz.
      apply elem_of_list_In, In_nth_error in Hz as [j Hj].
      assert (nth_error (map fst L) j = Some (ByBlockNumber 0)) as Hj' by (by rewrite nth_error_map, Hj).
      destruct (decide (j = r)) as [->|Hne].
      { assert (c = ByBlockNumber 0) as -> by congruence. cbn. lia. }
      assert (before c (ByBlockNumber 0)) as Hb by (eapply sorted_nth; [exact HS|exact Hrc|exact Hj'|lia]).
      destruct c; cbn in Hb; [lia|done|done]. }
    assert (Hmax : forall c' x', (c', x') ∈ L -> reached c' n t -> before c' c \/ c' = c).
    { intros c' x' Hin' Hre'. apply elem_of_list_In, In_nth_error in Hin' as [j Hj].
      assert (nth_error (map fst L) j = Some c') as Hj' by (by rewrite nth_error_map, Hj).
      assert (j <= r)%nat by (apply (HA j c' Hj'); by right).
      destruct (decide (j = r)) as [->|]; [right; congruence|]. left. eapply sorted_nth; [exact HS|exact Hj'|exact Hrc|lia]. }
    assert (HF : in_force l n t x).
    { pose proof (proj1 (HI c x) Hin) as (pre & post & E & Hp). exists pre, c, post. split; [done|]. split; [done|].
      apply Forall_forall. intros [c' x'] Hpo Hre'. cbn in Hre'.
      assert (c' <> c) by (rewrite Forall_forall in Hp; apply (Hp _ Hpo)).
      assert (Hc' : c' ∈ map fst l).
      { rewrite E, map_app. apply elem_of_app. right. right. apply elem_of_list_fmap. by exists (c', x'). }
      destruct (Hlast c' Hc') as [z Hz]. apply HI in Hz. destruct (Hmax c' z Hz Hre') as [Hb|]; [|done].
      rewrite E, map_app in Hw. cbn in Hw.
      assert (HW : StronglySorted (fun a b => before a b \/ a = b) (c :: map fst post)).
      { clear -Hw. induction (map fst pre) as [|a p IH]; [done|]. cbn in Hw. apply StronglySorted_inv in Hw as [Hw _]. auto. }
      apply StronglySorted_inv in HW as [_ HW]. rewrite List.Forall_forall in HW.
      destruct (HW c') as [Hb'|]; [|..|done].
      { apply in_map_iff. exists (c', x'). split; [done|]. by apply elem_of_list_In. }
      destruct (C45_total_order c c' c) as (Hirr & Htr & _). apply Hirr. by apply Htr. }
    intros y. rewrite nth_error_map, Hr. cbn. split; [intros [= <-]; done|].
    intros (pre & c1 & post & E & Hre1 & Hp1). destruct HF as (pre' & c2 & post' & E' & Hre2 & Hp2).
    f_equal. clear -E E' Hre1 Hre2 Hp1 Hp2. rewrite E in E'. clear E. revert pre' E'.
    induction pre as [|a pre IH]; intros [|a' pre'] E'; cbn in E'.
    - by injection E' as -> -> ->.
    - injection E' as _ ->. exfalso. rewrite Forall_forall in Hp1. eapply (Hp1 (c2, x)); [|done].
      apply elem_of_app. right. by left.
    - injection E' as _ <-. exfalso. rewrite Forall_forall in Hp2. eapply (Hp2 (c1, y)); [|done].
      apply elem_of_app. right. by left.
    - injection E' as _ E'. by eapply IH.
  Qed.
End load.

(** ** The schedule of a JSON file *)
(** What [load_from_json] makes of a configuration with block numbers that
    never go back: the active fork at block [n] and time [t] is the last one of
    the list that is reached.  Several forks may begin with one block, as in
    test networks that begin with a late fork. *)
Theorem C94_json h e150 e155 byz con ist ber lon mer sha n t m i0 :
  0 <= h <= e150 -> e150 <= e155 <= byz -> byz <= con <= ist -> ist <= ber <= lon -> lon <= mer -> sha < 2 ^ 256 ->
  (sha <= t -> mer <= n) ->
  exists forks,
    load_from_json (GethConfig (Some (Z.of_N h)) (Some (Z.of_N e150)) (Some (Z.of_N e155)) (Some (Z.of_N byz))
      (Some (Z.of_N con)) (Some (Z.of_N ist)) (Some (Z.of_N ber)) (Some (Z.of_N lon)) (Some (Z.of_N mer))
      (Some (Z.of_N sha)) false) = inr forks /\
    StronglySorted before (map fst forks) /\
    forall x, nth_error (map snd forks)
                (ft_active_fork_index (set_block (ForkTracking (map fst forks) m i0) n t)) = Some x <->
      in_force [(ByBlockNumber 0, GFrontier); (ByBlockNumber h, GHomestead); (ByBlockNumber e150, GTangerineWhistle);
                (ByBlockNumber e155, GSpuriousDragon); (ByBlockNumber byz, GByzantium);
                (ByBlockNumber con, GConstantinople); (ByBlockNumber ist, GIstanbul); (ByBlockNumber ber, GBerlin);
                (ByBlockNumber lon, GLondon); (ByBlockNumber mer, GParis); (ByTimestamp sha, GShanghai)] n t x.
Proof.
  intros H1 H2 H3 H4 H5 Hs Ht. match goal with |- context [in_force ?L _ _ _] => set (l := L) end.
  assert (HN : NoDup (map snd l)).
  { unfold l. cbn [map snd]. repeat (apply NoDup_cons; split; [rewrite elem_of_list_In; cbn [In]; intuition discriminate|]).
    apply NoDup_nil_2. }
  exists (load (dict_of l)). split.
  - unfold load_from_json, by_timestamp.
    assert (B : forall b, by_block_number (Some (Z.of_N b)) = inr (ByBlockNumber b)).
    { intros b. unfold by_block_number. destruct (Z.ltb_spec (Z.of_N b) 0); [lia|]. by rewrite N2Z.id. }
    cbn [g_homesteadBlock g_eip150Block g_eip155Block g_byzantiumBlock g_constantinopleBlock g_istanbulBlock
      g_berlinBlock g_londonBlock g_mergeForkBlock g_shanghaiTime g_has_daoForkBlock read_blocks].
    rewrite !B. cbn [app].
    destruct (Z.ltb_spec (Z.of_N sha) 0); [lia|]. cbn [orb].
    destruct (Z.leb_spec (2 ^ 256) (Z.of_N sha)) as [Hc|_].
    { exfalso. apply (N2Z.inj_lt sha (2 ^ 256)) in Hs. rewrite N2Z.inj_pow in Hs. cbn [Z.of_N] in Hs. revert Hc Hs.
      generalize (2 ^ 256)%Z. lia. }
    by rewrite N2Z.id.
  - split; [by apply C94_load|]. apply (C94_active l n t GFrontier (tail l)); [done|done| |].
    + unfold l. cbn [map fst].
      assert (W : forall a b, a <= b -> before (ByBlockNumber a) (ByBlockNumber b) \/ ByBlockNumber a = ByBlockNumber b).
      { intros a b Hab. destruct (decide (a = b)) as [->|]; [by right|]. left. cbn. lia. }
      repeat (constructor; [|repeat (constructor; [first [apply W; clear -H1 H2 H3 H4 H5; lia|by left]|]); constructor]).
      constructor.
    + intros b u Hb Hu Hle. unfold l in Hb, Hu. cbn [map fst] in Hb, Hu. rewrite elem_of_list_In in Hb, Hu.
      assert (u = sha) as ->.
      { cbn [In] in Hu. repeat (destruct Hu as [Hu|Hu]; [first [discriminate Hu|by injection Hu]|]). destruct Hu. }
      specialize (Ht Hle). clear Hu Hs Hle. cbn [In] in Hb.
      repeat (destruct Hb as [Hb|Hb]; [first [discriminate Hb|injection Hb as <-; clear -H1 H2 H3 H4 H5 Ht; lia]|]). destruct Hb.
Qed.
(** What it rejects: missing keys, negative or too large numbers, and any
    configuration with the DAO fork. *)
Theorem C94_rejects c : (exists e, load_from_json c = inl e) <->
  (exists v, In v [g_homesteadBlock c; g_eip150Block c; g_eip155Block c; g_byzantiumBlock c; g_constantinopleBlock c;
                   g_istanbulBlock c; g_berlinBlock c; g_londonBlock c; g_mergeForkBlock c; g_shanghaiTime c] /\
             (v = None \/ exists z, v = Some z /\ (z < 0)%Z)) \/
  (exists z, g_shanghaiTime c = Some z /\ (2 ^ 256 <= z)%Z) \/ g_has_daoForkBlock c = true.
Proof.
  assert (B : forall l, (exists e, read_blocks l = inl e) <->
    exists v, In v (map fst l) /\ (v = None \/ exists z, v = Some z /\ (z < 0)%Z)).
  { induction l as [|[v x] l IH]; cbn [read_blocks map In fst].
    { split; [intros [? ?]; done|intros (? & [] & _)]. }
    unfold by_block_number. destruct v as [z|].
    2:{ split; [|eauto]. intros _. exists None. auto. }
    destruct (Z.ltb_spec z 0) as [Hz|Hz].
    { split; [|eauto]. intros _. exists (Some z). split; [by left|]. right. eauto. }
    destruct (read_blocks l) as [e|r].
    - split; [|eauto]. intros _. destruct (proj1 IH) as (v & Hv & Hb); [eauto|]. exists v. auto.
    - split; [intros [? ?]; done|]. intros (v & [<-|Hv] & Hb).
      + destruct Hb as [?|(z' & [= <-] & ?)]; [done|lia].
      + destruct (proj2 IH) as [? ?]; [eauto|done]. }
  unfold load_from_json.
  match goal with |- context [read_blocks ?L] => specialize (B L); set (bl := L) in * end. cbn [map fst bl] in B.
  destruct (read_blocks bl) as [e|r].
  { split; [|eauto]. intros _. destruct (proj1 B) as (v & Hv & Hb); [eauto|]. left. exists v. split; [|done].
    cbn [In] in *. tauto. }
  assert (B' : ~ exists v, In v [g_homesteadBlock c; g_eip150Block c; g_eip155Block c; g_byzantiumBlock c;
    g_constantinopleBlock c; g_istanbulBlock c; g_berlinBlock c; g_londonBlock c; g_mergeForkBlock c] /\
             (v = None \/ exists z, v = Some z /\ (z < 0)%Z)).
  { intros H. apply B in H as [? ?]. done. }
  unfold by_timestamp. destruct (g_shanghaiTime c) as [z|] eqn:Es.
  2:{ split; [|eauto]. intros _. left. exists None. split; [cbn [In]; tauto|by left]. }
  destruct (Z.ltb_spec z 0) as [Hz|Hz]; cbn [orb].
  { split; [|eauto]. intros _. left. exists (Some z). split; [cbn [In]; tauto|]. right. eauto. }
  destruct (Z.leb_spec (2 ^ 256) z) as [Hl|Hl].
  { split; [|eauto]. intros _. right. left. eauto. }
  destruct (g_has_daoForkBlock c).
  { split; [|eauto]. intros _. by right; right. }
  split; [intros [? ?]; done|]. intros [(v & Hv & Hb)|[(z' & [= <-] & Hz')|?]]; [|lia|done].
  exfalso. assert (Hv' : v = Some z \/ v <> Some z) by (destruct v as [y|]; [destruct (Z.eq_dec y z); [left|right]|right]; congruence).
  destruct Hv' as [->|Hne].
  - destruct Hb as [?|(z' & [= <-] & ?)]; [done|lia].
  - apply B'. exists v. split; [|done]. cbn [In] in *. destruct Hv as [?|[?|[?|[?|[?|[?|[?|[?|[?|[?|[]]]]]]]]]]]; try tauto.
    congruence.
Qed.

(** ** A concrete case: a test network with all forks up to London in block 0,
    the merge in block 100. *)
Example C94_nonvacuous :
  let c := GethConfig (Some 0%Z) (Some 0%Z) (Some 0%Z) (Some 0%Z) (Some 0%Z) (Some 0%Z) (Some 0%Z) (Some 0%Z) (Some 100%Z) (Some 5000%Z) false in
  load_from_json c = inr [(ByBlockNumber 0, GLondon); (ByBlockNumber 100, GParis); (ByTimestamp 5000, GShanghai)] /\
  ft_active_fork_index (set_block (ForkTracking [ByBlockNumber 0; ByBlockNumber 100; ByTimestamp 5000] 0 0) 99 4000) = 0%nat /\
  ft_active_fork_index (set_block (ForkTracking [ByBlockNumber 0; ByBlockNumber 100; ByTimestamp 5000] 0 0) 100 4999) = 1%nat.
Proof. vm_compute. auto. Qed.

Definition PropForkConfig_theorems := (@C94_load, @C94_latest, @C94_active, @C94_json, @C94_rejects).
Print Assumptions PropForkConfig_theorems.
