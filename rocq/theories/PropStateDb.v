(** * PropStateDb: the database-backed state refines the reference state (C44). *)
From Verif Require Import Base State StateSpec StateProofs StateDb.

(** ** The same calls on the reference state *)
Definition step (x : action) (w : world) : result world :=
  match x with
  | ABegin => Ok (begin_transaction w)
  | ACommit => commit_transaction w
  | ARollback => rollback_transaction w
  | AOp o => run_op o w
  end.
Fixpoint steps (l : list action) (w : world) : result world :=
  match l with
  | [] => Ok w
  | x :: l => match step x w with Ok w' => steps l w' | Raise c => Raise c end
  end.

(** ** What a call destroys *)
Definition emptied (s : state) (a : address) (f : account -> result account) : list address :=
  match f (get_account s a) with
  | Ok acc => if decide (acc = EMPTY_ACCOUNT) then [a] else []
  | Raise _ => []
  end.
Definition destroys (o : state_op) (s : state) : list address :=
  match o with
  | OpDestroyStorage a | OpDestroyAccount a => [a]
  | OpMoveEther a b n =>
      emptied s a (reduce_sender_balance n) ++
      match modify_state s a (reduce_sender_balance n) with
      | Ok s' => emptied s' b (increase_recipient_balance n)
      | Raise _ => []
      end
  | OpSetBalance a n => emptied s a (fun acc => Ok (Account (nonce acc) n (code acc)))
  | OpIncrementNonce a => emptied s a (fun acc => Ok (Account (nonce acc + 1) (balance acc) (code acc)))
  | OpSetCode a c => emptied s a (fun acc => Ok (Account (nonce acc) (balance acc) c))
  | _ => []
  end.
Definition writes (o : state_op) : gset address :=
  match o with OpSetStorage a _ _ => {[ a ]} | _ => ∅ end.

(** The addresses destroyed so far in the outermost transaction, and those
    written since they were last destroyed. *)
Notation marks := (gset address * gset address)%type.
Definition mark_destroyed (a : address) (g : marks) : marks := ({[ a ]} ∪ g.1, g.2 ∖ {[ a ]}).
Definition mark_op (o : state_op) (s : state) (g : marks) : marks :=
  let g := fold_left (fun g a => mark_destroyed a g) (destroys o s) g in
  (g.1, g.2 ∪ writes o).

(** Inside a transaction no address is destroyed, written, and destroyed
    again. *)
Definition tame_op (o : state_op) (s : state) (g : marks) : Prop :=
  snapshots s = [] \/ forall a, In a (destroys o s) -> ~ (a ∈ g.1 /\ a ∈ g.2).
Fixpoint tame (l : list action) (w : world) (g : marks) (gs : list marks) : Prop :=
  match l with
  | [] => True
  | x :: l =>
      (match x with AOp o => tame_op o (st w) g | _ => True end) /\
      match step x w with
      | Raise _ => True
      | Ok w' =>
          match x with
          | ABegin => let g0 := match snapshots (st w) with [] => (∅, ∅) | _ => g end in
                      tame l w' g0 (g0 :: gs)
          | ACommit => tame l w' g (tail gs)
          | ARollback => tame l w' (hd g gs) (tail gs)
          | AOp o => tame l w' (mark_op o (st w) g) gs
          end
      end
  end.

(** ** Agreement of all reads *)
Definition agree (w : world) (d : dworld) : Prop :=
  (forall a, d_get_account_optional (dst d) a = get_account_optional (st w) a) /\
  (forall a, d_get_account (dst d) a = get_account (st w) a) /\
  (forall a k, d_get_storage (dst d) a k = get_storage (st w) a k) /\
  (forall a k v, get_storage_original (st w) a k = Ok v -> d_get_storage_original (dst d) a k = v) /\
  (forall a, account_has_storage (st w) a = true -> d_account_has_storage (dst d) a = true) /\
  (forall a k, get_transient_storage (dts d) a k = get_transient_storage (ts w) a k) /\
  lenN (tx_restore_points (dst d)) = lenN (snapshots (st w)).

(** ** Simulation *)
Definition views (s : dstate) (m : accounts) (sto : storages) : Prop :=
  (forall a, d_get_account_optional s a = m !! a) /\ (forall a k, d_get_storage s a k = slot_of sto a k).
Definition overlay (s : dstate) (a : address) : gmap N N := default ∅ (dirty_storage s !! a).

(** [le s s']: the same, except that [s'] may cache accounts. *)
Record le (s s' : dstate) : Prop := {
  le_db : d_db s' = d_db s;
  le_acc : forall a, dirty_accounts s' !! a = dirty_accounts s !! a \/
    dirty_accounts s !! a = None /\ dirty_accounts s' !! a = Some (db_accounts (d_db s) !! a);
  le_sto : forall a, overlay s' a = overlay s a;
  le_des : forall a, destroyed s' a = destroyed s a;
}.
Lemma le_refl s : le s s.
Proof. constructor; auto. Qed.
Lemma d_get_storage_overlay s a k :
  d_get_storage s a k = match overlay s a !! k with
    | Some v => v
    | None => if destroyed s a =? 0 then db_get_storage (d_db s) a k else 0 end.
Proof.
  unfold d_get_storage, overlay. destruct (dirty_storage s !! a); cbn; [done|].
  by rewrite lookup_empty.
Qed.
Lemma le_trans s1 s2 s3 : le s1 s2 -> le s2 s3 -> le s1 s3.
Proof.
  intros [] []. constructor; [congruence| | |].
  - intros a. destruct (le_acc0 a) as [E|[E1 E2]], (le_acc1 a) as [F|[F1 F2]].
    + left; congruence.
    + right. split; congruence.
    + right. split; congruence.
    + congruence.
  - intros a. congruence.
  - intros a. congruence.
Qed.
Lemma le_views s s' m sto : le s s' -> views s m sto -> views s' m sto.
Proof.
  intros [] [V1 V2]. split.
  - intros a. rewrite <- V1. unfold d_get_account_optional. rewrite le_db0.
    destruct (le_acc0 a) as [->|[-> ->]]; done.
  - intros a k. rewrite <- V2, !d_get_storage_overlay. by rewrite le_db0, le_sto0, le_des0.
Qed.

(** Undoing an entry whose slot is in the overlay. *)
Definition ustep (i : jitem) (s s1 : dstate) : Prop :=
  undo_item i s = Ok s1 /\
  match i with JSlot a k _ => overlay s a !! k <> None | _ => True end.

Lemma overlay_insert s a t b db da de rp j c :
  overlay (DState db da (<[a := t]> (dirty_storage s)) de rp j c) b
  = if decide (a = b) then t else overlay s b.
Proof.
  unfold overlay. cbn. destruct (decide (a = b)) as [<-|].
  - by rewrite lookup_insert.
  - by rewrite lookup_insert_ne.
Qed.

Lemma ustep_le i s s' s1 : le s s' -> ustep i s s1 -> exists s1', ustep i s' s1' /\ le s1 s1'.
Proof.
  intros L [H K]. pose proof L as [L1 L2 L3 L4]. destruct i as [a k old|a t|a old].
  - (* slot *)
    assert (exists t, dirty_storage s !! a = Some t /\ overlay s a = t) as (t & Et & Ot).
    { unfold overlay in *. destruct (dirty_storage s !! a); [by eauto|]. by cbn in K; rewrite lookup_empty in K. }
    assert (exists t', dirty_storage s' !! a = Some t' /\ overlay s' a = t') as (t' & Et' & Ot').
    { rewrite <- L3 in K. unfold overlay in *. destruct (dirty_storage s' !! a); [by eauto|].
      by cbn in K; rewrite lookup_empty in K. }
    assert (t' = t) as -> by (rewrite <- Ot, <- Ot'; apply L3).
    rewrite Ot in K. destruct (t !! k) as [x|] eqn:Ek; [|done].
    destruct old as [v|]; cbn [undo_item] in H; rewrite Et in H; rewrite ?Ek in H; injection H as <-.
    + eexists. split.
      * split; [cbn [undo_item]; by rewrite Et'|]. by rewrite Ot', Ek.
      * constructor; cbn; auto. intros b. rewrite !overlay_insert.
        by destruct (decide (a = b)).
    + eexists. split.
      * split; [cbn [undo_item]; by rewrite Et', Ek|]. by rewrite Ot', Ek.
      * constructor; cbn; auto. intros b. rewrite !overlay_insert.
        by destruct (decide (a = b)).
  - (* storage *)
    cbn [undo_item] in H. destruct (N.eqb_spec (destroyed s a) 0) as [|E0]; [done|].
    destruct (N.eqb_spec (destroyed s a) 1) as [E1|E1]; injection H as <-.
    + eexists. split.
      * split; [|done]. cbn [undo_item]. rewrite L4, E1. cbn. reflexivity.
      * constructor; cbn; auto.
        -- intros b. rewrite !overlay_insert. by destruct (decide (a = b)).
        -- intros b. unfold destroyed in *; cbn. destruct (decide (a = b)) as [<-|].
           ++ by rewrite !lookup_delete.
           ++ rewrite !lookup_delete_ne by done. apply L4.
    + eexists. split.
      * split; [|done]. cbn [undo_item]. rewrite L4, (proj2 (N.eqb_neq _ _) E0), (proj2 (N.eqb_neq _ _) E1).
        reflexivity.
      * constructor; cbn; auto.
        intros b. unfold destroyed in *; cbn. destruct (decide (a = b)) as [<-|].
        -- by rewrite !lookup_insert.
        -- rewrite !lookup_insert_ne by done. apply L4.
  - destruct old as [v|]; cbn [undo_item] in H.
    + injection H as <-. eexists. split; [by split|]. constructor; cbn; auto.
      intros b. destruct (decide (a = b)) as [<-|].
      * left. by rewrite !lookup_insert.
      * rewrite !lookup_insert_ne by done. apply L2.
    + destruct (dirty_accounts s !! a) eqn:Ea; [|done]. injection H as <-.
      destruct (dirty_accounts s' !! a) eqn:Ea'; [|by destruct (L2 a) as [E|[E _]]; congruence].
      eexists. split; [split; [cbn [undo_item]; by rewrite Ea'|done]|]. constructor; cbn; auto.
      intros b. destruct (decide (a = b)) as [<-|].
      * left. by rewrite !lookup_delete.
      * rewrite !lookup_delete_ne by done. apply L2.
Qed.

Fixpoint undone (l : list jitem) (s s2 : dstate) : Prop :=
  match l with
  | [] => s2 = s
  | i :: l => exists s1, ustep i s s1 /\ undone l s1 s2
  end.
Lemma undone_app l1 l2 s s1 s2 : undone l1 s s1 -> undone l2 s1 s2 -> undone (l1 ++ l2) s s2.
Proof.
  revert s. induction l1 as [|i l1 IH]; intros s H1 H2.
  - cbn in H1. by subst.
  - destruct H1 as (s' & H & H1). exists s'. split; [done|]. by apply IH.
Qed.
Lemma undone_le l s s' s1 : le s s' -> undone l s s1 -> exists s1', undone l s' s1' /\ le s1 s1'.
Proof.
  revert s s'. induction l as [|i l IH]; intros s s' L H.
  - cbn in H. subst. by exists s'.
  - destruct H as (s0 & U & H). destruct (ustep_le _ _ _ _ L U) as (s0' & U' & L').
    destruct (IH _ _ L' H) as (s1' & H' & L1). exists s1'. split; [|done]. by exists s0'.
Qed.
Lemma undo_done l j s s1 r : undone l s s1 -> lenN j = r ->
  exists s1', undo r (l ++ j) s = Ok s1' /\ s1' = set_journal j s1.
Proof.
  intros H <-. revert s H. induction l as [|i l IH]; intros s H.
  - cbn in H. subst. exists (set_journal j s). split; [|done]. destruct j as [|x j]; [done|].
    cbn [app undo]. by rewrite (proj2 (N.leb_le _ _)) by lia.
  - destruct H as (s0 & [U _] & H). destruct (IH _ H) as (s1' & E & ->).
    exists (set_journal j s1). split; [|done]. cbn [app undo].
    destruct (N.leb_spec (lenN (i :: l ++ j)) (lenN j)) as [Hl|Hl].
    + exfalso. revert Hl. unfold lenN. cbn [length]. rewrite app_length. lia.
    + by rewrite U.
Qed.

(** The marks cover what is in the overlay. *)
Definition marked (s : dstate) (g : marks) : Prop :=
  (forall a, overlay s a <> ∅ -> a ∈ g.2) /\ (forall a, destroyed s a <> 0 -> a ∈ g.1).
Lemma le_marked s s' g : le s s' -> marked s g -> marked s' g.
Proof. intros [] [M1 M2]. split; intros a; [rewrite le_sto0|rewrite le_des0]; auto. Qed.

(** Undoing the journal down to each restore point gives the corresponding
    snapshot. *)
Fixpoint backs (s : dstate) (j : list jitem) (rs : list N) (snaps : list (accounts * storages))
    (gs : list marks) : Prop :=
  match rs, snaps, gs with
  | [], [], [] => True
  | r :: rs, (m, sto) :: snaps, g :: gs =>
      exists l j1 s1, j = l ++ j1 /\ lenN j1 = r /\ undone l s s1 /\ views s1 m sto /\ marked s1 g /\
        backs s1 j1 rs snaps gs
  | _, _, _ => False
  end.
Lemma backs_le s s' j rs sn gs : le s s' -> backs s j rs sn gs -> backs s' j rs sn gs.
Proof.
  revert s s' j sn gs. induction rs as [|r rs IH]; intros s s' j [|[m sto] sn] [|g gs] L H; try done.
  destruct H as (l & j1 & s1 & -> & Hr & U & V & M & B).
  destruct (undone_le _ _ _ _ L U) as (s1' & U' & L').
  exists l, j1, s1'. split; [done|]. split; [done|]. split; [done|].
  split; [by eapply le_views|]. split; [by eapply le_marked|]. by eapply IH.
Qed.
Lemma backs_push l0 s s0 s' j rs sn gs : undone l0 s' s0 -> le s s0 -> backs s j rs sn gs ->
  backs s' (l0 ++ j) rs sn gs.
Proof.
  destruct rs as [|r rs], sn as [|[m sto] sn], gs as [|g gs]; try done. intros U0 L B.
  pose proof (backs_le _ _ _ _ _ _ L B) as B'.
  destruct B' as (l & j1 & s1 & -> & Hr & U & V & M & B').
  exists (l0 ++ l), j1, s1. rewrite app_assoc. split; [done|]. split; [done|]. split; [by eapply undone_app|].
  done.
Qed.

Record sim (w : world) (d : dworld) (g : marks) (gs : list marks) : Prop := {
  sim_views : views (dst d) (main_trie (st w)) (storage_tries (st w));
  sim_backs : backs (dst d) (journal (dst d)) (tx_restore_points (dst d)) (snapshots (st w)) gs;
  sim_marked : marked (dst d) g;
  sim_clean : clean_world w;
  sim_db : clean_storages (db_storages (d_db (dst d)));
  sim_created : d_created (dst d) = created_accounts (st w);
  sim_ts : dts d = ts w;
  sim_depth : length (ts_snapshots (ts w)) = length (snapshots (st w));
  sim_original : forall m sto, last (snapshots (st w)) = Some (m, sto) ->
    forall a k, db_get_storage (d_db (dst d)) a k = slot_of sto a k;
}.

(** ** Single calls *)
Record stepped (s s' : dstate) : Prop := {
  sp_db : d_db s' = d_db s;
  sp_rs : tx_restore_points s' = tx_restore_points s;
  sp_created : d_created s' = d_created s;
  sp_undo : exists l s0, journal s' = l ++ journal s /\
    (tx_restore_points s = [] \/ undone l s' s0 /\ le s s0);
}.
Lemma stepped_refl s : stepped s s.
Proof. constructor; try done. exists [], s. split; [done|]. right. split; [done|apply le_refl]. Qed.
Lemma stepped_trans s1 s2 s3 : stepped s1 s2 -> stepped s2 s3 -> stepped s1 s3.
Proof.
  intros [A1 A2 A3 (l1 & t1 & A4 & A5)] [B1 B2 B3 (l2 & t2 & B4 & B5)].
  constructor; [congruence|congruence|congruence|].
  destruct (decide (tx_restore_points s1 = [])) as [E|E].
  - exists (l2 ++ l1), s1. split; [by rewrite B4, A4, app_assoc|by left].
  - destruct A5 as [|[A5 A6]]; [done|]. destruct B5 as [|[B5 B6]]; [congruence|].
    destruct (undone_le _ _ _ _ B6 A5) as (t & U & L).
    exists (l2 ++ l1), t. split; [by rewrite B4, A4, app_assoc|]. right.
    split; [by eapply undone_app|by eapply le_trans].
Qed.

Lemma set_account_stepped s a v : stepped s (d_set_account s a v).
Proof.
  constructor; try done. exists [JAccount a (dirty_accounts s !! a)].
  destruct (dirty_accounts s !! a) as [o|] eqn:E.
  - eexists. split; [cbn; by rewrite E|]. right. split.
    + eexists. split; [|done]. split; [|done]. reflexivity.
    + constructor; cbn; auto. intros b. left. rewrite insert_insert.
      destruct (decide (a = b)) as [<-|]; [by rewrite lookup_insert|by rewrite lookup_insert_ne].
  - eexists. split; [cbn; by rewrite E|]. right. split.
    + eexists. split; [|done]. split; [|done]. cbn [undo_item d_set_account dirty_accounts].
      rewrite lookup_insert. reflexivity.
    + constructor; cbn; auto. intros b. left. by rewrite delete_insert.
Qed.

Lemma set_storage_stepped s a k v : stepped s (d_set_storage s a k v).
Proof.
  constructor; try done. exists [JSlot a k (overlay s a !! k)].
  assert (Ov : forall b, overlay (d_set_storage s a k v) b
    = if decide (a = b) then <[k := v]> (overlay s a) else overlay s b).
  { intros b. unfold d_set_storage. apply overlay_insert. }
  assert (Ha : dirty_storage (d_set_storage s a k v) !! a = Some (<[k := v]> (overlay s a))).
  { cbn. by rewrite lookup_insert. }
  assert (Acc : forall b, dirty_accounts (d_set_storage s a k v) !! b = dirty_accounts s !! b \/
    dirty_accounts s !! b = None /\
    dirty_accounts (d_set_storage s a k v) !! b = Some (db_accounts (d_db s) !! b)).
  { intros b. cbn. destruct (dirty_accounts s !! a) eqn:E; [by left|].
    destruct (decide (a = b)) as [<-|].
    - right. split; [done|]. rewrite lookup_insert. unfold d_get_account_optional. by rewrite E.
    - left. by rewrite lookup_insert_ne. }
  destruct (overlay s a !! k) as [x|] eqn:E.
  - eexists. split; [cbn; fold (overlay s a); by rewrite E|]. right. split.
    + eexists. split; [|done]. split; [cbn [undo_item]; rewrite Ha; reflexivity|].
      rewrite Ov, decide_True by done. by rewrite lookup_insert.
    + constructor; cbn [d_db dirty_accounts]; auto.
      * intros b. rewrite overlay_insert, Ov. destruct (decide (a = b)) as [<-|]; [|done].
        rewrite insert_insert. by apply insert_id.
  - eexists. split; [cbn; fold (overlay s a); by rewrite E|]. right. split.
    + eexists. split; [|done]. split; [cbn [undo_item]; rewrite Ha, lookup_insert; reflexivity|].
      rewrite Ov, decide_True by done. by rewrite lookup_insert.
    + constructor; cbn [d_db dirty_accounts]; auto.
      * intros b. rewrite overlay_insert, Ov. destruct (decide (a = b)) as [<-|]; [|done].
        by apply delete_insert.
Qed.

(** The part of [d_destroy_storage] before it sets the account. *)
Definition d_drop (s : dstate) (a : address) : dstate :=
  DState (d_db s) (dirty_accounts s) (delete a (dirty_storage s))
    (<[a := destroyed s a + 1]> (destroyed_accounts s)) (tx_restore_points s)
    (JStorage a (overlay s a) :: journal s) (d_created s).
Lemma overlay_drop s a b : overlay (d_drop s a) b = if decide (a = b) then ∅ else overlay s b.
Proof.
  unfold overlay; cbn. destruct (decide (a = b)) as [<-|]; [by rewrite lookup_delete|by rewrite lookup_delete_ne].
Qed.
Lemma destroyed_drop s a b : destroyed (d_drop s a) b = if decide (a = b) then destroyed s a + 1 else destroyed s b.
Proof.
  unfold destroyed at 1; cbn. destruct (decide (a = b)) as [<-|]; [by rewrite lookup_insert|by rewrite lookup_insert_ne].
Qed.
Lemma drop_stepped s a : tx_restore_points s = [] \/ destroyed s a = 0 \/ overlay s a = ∅ ->
  stepped s (d_drop s a).
Proof.
  intros Hs. constructor; try done. exists [JStorage a (overlay s a)].
  destruct Hs as [|Hs]; [exists s; split; [done|by left]|].
  pose proof (destroyed_drop s a a) as Ed. rewrite decide_True in Ed by done.
  destruct (N.eq_dec (destroyed s a) 0) as [E|E].
  - eexists. split; [done|]. right. split.
    + eexists. split; [|done]. split; [|done]. cbn [undo_item]. rewrite Ed, E. cbn. reflexivity.
    + constructor; cbn; auto.
      * intros b. unfold overlay; cbn. destruct (decide (a = b)) as [<-|].
        -- by rewrite lookup_insert.
        -- by rewrite lookup_insert_ne, lookup_delete_ne.
      * intros b. unfold destroyed at 1; cbn. destruct (decide (a = b)) as [<-|].
        -- by rewrite lookup_delete.
        -- by rewrite lookup_delete_ne, lookup_insert_ne.
  - destruct Hs as [|Hs]; [done|]. eexists. split; [done|]. right. split.
    + eexists. split; [|done]. split; [|done]. cbn [undo_item]. rewrite Ed.
      rewrite (proj2 (N.eqb_neq _ _)) by lia. rewrite (proj2 (N.eqb_neq _ _)) by lia. reflexivity.
    + constructor; cbn [d_db dirty_accounts]; auto.
      * intros b. change (overlay (d_drop s a) b = overlay s b). rewrite overlay_drop.
        by destruct (decide (a = b)) as [<-|].
      * intros b. unfold destroyed at 1; cbn. destruct (decide (a = b)) as [<-|].
        -- rewrite lookup_insert. cbn. lia.
        -- by rewrite !lookup_insert_ne.
Qed.

(** ** Calls and the reference *)
Definition seen (d : dstate) (s : state) : Prop := views d (main_trie s) (storage_tries s).

Lemma seen_set_account d s a v : seen d s -> seen (d_set_account d a v) (set_account s a v).
Proof.
  intros [V1 V2]. split; [|intros b k; apply V2].
  intros b. change (main_trie ?x !! b) with (get_account_optional x b). rewrite get_account_optional_set.
  unfold d_get_account_optional; cbn. destruct (decide (a = b)) as [<-|]; [by rewrite lookup_insert|].
  rewrite lookup_insert_ne by done. apply V1.
Qed.
Lemma seen_destroy_storage d s a : seen d s -> seen (d_destroy_storage d a) (destroy_storage s a).
Proof.
  intros [V1 V2]. split.
  - intros b. rewrite destroy_storage_main, <- V1. unfold d_destroy_storage, d_get_account_optional; cbn.
    destruct (decide (a = b)) as [<-|]; [by rewrite lookup_insert|by rewrite lookup_insert_ne].
  - intros b k. change (d_get_storage (d_drop d a) b k = slot_of (storage_tries (destroy_storage s a)) b k).
    rewrite d_get_storage_overlay, overlay_drop, destroyed_drop, destroy_storage_storages. unfold slot_of.
    destruct (decide (a = b)) as [<-|].
    + rewrite lookup_delete, lookup_empty. by rewrite (proj2 (N.eqb_neq _ _)) by lia.
    + rewrite lookup_delete_ne by done. specialize (V2 b k). rewrite d_get_storage_overlay in V2. exact V2.
Qed.
Lemma seen_set_storage d s a k v s' : seen d s -> set_storage s a k v = Ok s' -> seen (d_set_storage d a k v) s'.
Proof.
  intros [V1 V2] H. apply set_storage_inv in H as [_ ->]. split.
  - intros b. cbn [main_trie set_storages]. rewrite <- V1. unfold d_get_account_optional; cbn.
    destruct (dirty_accounts d !! a) eqn:E; [done|]. destruct (decide (a = b)) as [<-|].
    + rewrite lookup_insert, E. unfold d_get_account_optional. by rewrite E.
    + by rewrite lookup_insert_ne.
  - intros b k'. cbn [storage_tries set_storages]. rewrite slot_of_set, <- V2, !d_get_storage_overlay.
    unfold d_set_storage. rewrite overlay_insert. cbn [d_db]. unfold destroyed at 1; cbn [destroyed_accounts].
    fold (destroyed d b). fold (overlay d a). destruct (decide (a = b)) as [<-|].
    + destruct (decide (k = k')) as [<-|].
      * rewrite lookup_insert. by rewrite decide_True.
      * rewrite lookup_insert_ne by done. by rewrite decide_False by tauto.
    + by rewrite decide_False by tauto.
Qed.
Lemma seen_get d s a : seen d s -> d_get_account d a = get_account s a.
Proof. intros [V1 _]. unfold d_get_account, get_account, get_account_optional. by rewrite V1. Qed.

Lemma marked_set_account d a v g : marked d g -> marked (d_set_account d a v) g.
Proof. done. Qed.
Lemma marked_destroy d a g : marked d g -> marked (d_destroy_storage d a) (mark_destroyed a g).
Proof.
  intros [M1 M2]. split; intros b; cbn [mark_destroyed fst snd].
  - change (overlay (d_destroy_storage d a) b) with (overlay (d_drop d a) b). rewrite overlay_drop.
    destruct (decide (a = b)) as [<-|]; [done|]. intros H. apply M1 in H. set_solver.
  - change (destroyed (d_destroy_storage d a) b) with (destroyed (d_drop d a) b). rewrite destroyed_drop.
    destruct (decide (a = b)) as [<-|]; [set_solver|]. intros H. apply M2 in H. set_solver.
Qed.

(** One call: the database-backed state takes a step it can undo, and still
    agrees with the reference. *)
Definition follows (d : dstate) (s : state) (g : marks) (d' : dstate) (s' : state) (g' : marks) : Prop :=
  stepped d d' /\ seen d' s' /\ marked d' g'.
Lemma destroy_follows d s g a : seen d s -> marked d g ->
  tx_restore_points d = [] \/ ~ (a ∈ g.1 /\ a ∈ g.2) ->
  follows d s g (d_destroy_storage d a) (destroy_storage s a) (mark_destroyed a g).
Proof.
  intros V M Hs. split; [|split; [by apply seen_destroy_storage|by apply marked_destroy]].
  eapply stepped_trans; [|apply set_account_stepped]. apply drop_stepped.
  destruct Hs as [|Hs]; [by left|right]. destruct M as [M1 M2].
  destruct (N.eq_dec (destroyed d a) 0); [by left|right].
  destruct (decide (overlay d a = ∅)); [done|]. exfalso. apply Hs. auto.
Qed.
Lemma modify_follows d s g a f s' : seen d s -> marked d g ->
  tx_restore_points d = [] \/ (forall b, In b (emptied s a f) -> ~ (b ∈ g.1 /\ b ∈ g.2)) ->
  modify_state s a f = Ok s' ->
  exists d', d_modify_state d a f = Ok d' /\
    follows d s g d' s' (fold_left (fun g a => mark_destroyed a g) (emptied s a f) g).
Proof.
  intros V M Hs H. pose proof (modify_state_inv _ _ _ _ H) as (acc & Hf & HH).
  unfold d_modify_state, emptied in *. rewrite (seen_get d s) by done. rewrite Hf in *.
  eexists. split; [reflexivity|].
  assert (E : d_account_exists_and_is_empty (d_set_account d a (Some acc)) a = account_is_empty acc).
  { unfold d_account_exists_and_is_empty, d_get_account_optional; cbn. by rewrite lookup_insert. }
  rewrite E. destruct HH as [[Hne ->]|[-> ->]].
  - destruct (account_is_empty acc) eqn:Ee; [by apply account_is_empty_spec in Ee|].
    rewrite decide_False by done. split; [apply set_account_stepped|].
    split; [by apply seen_set_account|done].
  - assert (account_is_empty EMPTY_ACCOUNT = true) as -> by done. rewrite decide_True in * by done.
    cbn [fold_left]. unfold d_destroy_account, destroy_account.
    destruct (destroy_follows (d_set_account d a (Some EMPTY_ACCOUNT)) (set_account s a (Some EMPTY_ACCOUNT)) g a)
      as (S1 & V1 & M1).
    { by apply seen_set_account. } { done. }
    { destruct Hs as [Hs|Hs]; [by left|right]. apply Hs. by left. }
    split; [|split; [by apply seen_set_account|done]].
    eapply stepped_trans; [apply set_account_stepped|]. eapply stepped_trans; [exact S1|].
    apply set_account_stepped.
Qed.

Lemma op_follows o w d g w' : seen (dst d) (st w) -> marked (dst d) g -> dts d = ts w ->
  tx_restore_points (dst d) = [] \/ (forall b, In b (destroys o (st w)) -> ~ (b ∈ g.1 /\ b ∈ g.2)) ->
  (forall a, o <> OpMarkCreated a) ->
  run_op o w = Ok w' ->
  exists d', d_run_op o d = Ok d' /\ dts d' = ts w' /\
    follows (dst d) (st w) g (dst d') (st w') (mark_op o (st w) g).
Proof.
  intros V M HT Hs Hm H.
  assert (HM : forall a f s',
    tx_restore_points (dst d) = [] \/ (forall b, In b (emptied (st w) a f) -> ~ (b ∈ g.1 /\ b ∈ g.2)) ->
    modify_state (st w) a f = Ok s' -> destroys o (st w) = emptied (st w) a f -> writes o = ∅ ->
    exists d', d_modify_state (dst d) a f = Ok d' /\ follows (dst d) (st w) g d' s' (mark_op o (st w) g)).
  { intros a f s' Hs' H' Hd Hw. destruct (modify_follows _ _ _ _ _ _ V M Hs' H') as (d' & E & F).
    exists d'. split; [done|]. unfold mark_op. rewrite Hd, Hw.
    destruct F as (F1 & F2 & F3 & F4). split; [done|]. split; [done|]. split; [|done].
    intros x Hx. cbn. apply F3 in Hx. set_solver. }
  assert (HG : marked (dst d) (g.1, g.2 ∪ ∅)).
  { destruct M as [M1 M2]. split; [|done]. intros a Ha. apply M1 in Ha. cbn. set_solver. }
  destruct o; cbn [run_op d_run_op on_state d_on_state destroys] in *; unfold on_state, d_on_state in *.
  - injection H as <-. eexists. split; [reflexivity|]. split; [done|].
    split; [apply set_account_stepped|]. split; [by apply seen_set_account|done].
  - injection H as <-. eexists. split; [reflexivity|]. split; [done|]. cbn [dst st set_st].
    destruct (destroy_follows (dst d) (st w) g a V M) as (F1 & F2 & F3 & F4).
    { destruct Hs as [|Hs]; [by left|right]. apply Hs. by left. }
    split; [done|]. split; [done|]. split; [|done]. intros x Hx. apply F3 in Hx. cbn in *. set_solver.
  - injection H as <-. eexists. split; [reflexivity|]. split; [done|]. cbn [dst st set_st].
    destruct (destroy_follows (dst d) (st w) g a V M) as (F1 & F2 & F3 & F4).
    { destruct Hs as [|Hs]; [by left|right]. apply Hs. by left. }
    split; [eapply stepped_trans; [exact F1|apply set_account_stepped]|].
    split; [by apply seen_set_account|]. split; [|done]. intros x Hx. apply F3 in Hx. cbn in *. set_solver.
  - by destruct (Hm a).
  - destruct (set_storage (st w) a key value) as [s'|] eqn:E; [|done]. injection H as <-.
    eexists. split; [reflexivity|]. split; [done|]. cbn [dst st set_st].
    split; [apply set_storage_stepped|]. split; [by eapply seen_set_storage|].
    destruct M as [M1 M2]. split; [|done]. intros b. unfold d_set_storage. rewrite overlay_insert.
    cbn. destruct (decide (a = b)) as [<-|]; [set_solver|]. intros Hb. apply M1 in Hb. set_solver.
  - injection H as <-. eexists. split; [reflexivity|]. split; [by cbn; rewrite HT|].
    split; [apply stepped_refl|]. split; [done|done].
  - destruct (move_ether (st w) sender recipient amount) as [s'|] eqn:E; [|done]. injection H as <-.
    unfold move_ether in E. unfold d_move_ether.
    destruct (modify_state (st w) sender (reduce_sender_balance amount)) as [s1|] eqn:E1; [|done].
    destruct (modify_follows _ _ g sender (reduce_sender_balance amount) s1 V M) as (d1 & D1 & F1 & F2 & F3); [|exact E1|].
    { destruct Hs as [|Hs]; [by left|right]. intros b Hb. apply Hs, in_or_app. by left. }
    destruct (modify_follows d1 s1 (fold_left (λ g a, mark_destroyed a g)
      (emptied (st w) sender (reduce_sender_balance amount)) g) recipient (increase_recipient_balance amount) s' F2 F3)
      as (d2 & D2 & F4 & F5 & F6); [|exact E|].
    { destruct Hs as [Hs|Hs]; [left; by rewrite (sp_rs _ _ F1)|right].
      intros b Hb. assert (Hb' : ~ (b ∈ g.1 /\ b ∈ g.2)) by (apply Hs, in_or_app; by right).
      assert (Hl : forall l, Forall (eq sender) l -> forall g : marks, ~ (b ∈ g.1 /\ b ∈ g.2) ->
        ~ (b ∈ (fold_left (λ g a, mark_destroyed a g) l g).1 /\
           b ∈ (fold_left (λ g a, mark_destroyed a g) l g).2)).
      { clear. intros l Hl. induction Hl as [|x l <- Hl IH]; intros g Hg; [done|]. cbn [fold_left].
        apply IH. cbn. set_solver. }
      apply Hl; [|done]. unfold emptied. destruct (reduce_sender_balance _ _) as [acc|]; [|constructor].
      destruct (decide (acc = EMPTY_ACCOUNT)); repeat constructor. }
    rewrite D1, D2. eexists. split; [reflexivity|]. split; [done|]. cbn [dst st set_st].
    unfold mark_op. cbn [destroys writes]. rewrite E1, fold_left_app.
    split; [by eapply stepped_trans|]. split; [done|]. destruct F6 as [F6 F7]. split; [|done].
    intros x Hx. apply F6 in Hx. cbn. set_solver.
  - unfold set_account_balance, d_set_account_balance in *.
    destruct (modify_state (st w) a _) as [s'|] eqn:E; [|done]. injection H as <-.
    destruct (HM _ _ _ Hs E) as (d' & -> & F); [done|done|]. by eexists.
  - unfold increment_nonce, d_increment_nonce in *.
    destruct (modify_state (st w) a _) as [s'|] eqn:E; [|done]. injection H as <-.
    destruct (HM _ _ _ Hs E) as (d' & -> & F); [done|done|]. by eexists.
  - unfold set_code, d_set_code in *.
    destruct (modify_state (st w) a _) as [s'|] eqn:E; [|done]. injection H as <-.
    destruct (HM _ _ _ Hs E) as (d' & -> & F); [done|done|]. by eexists.
Qed.

(** ** Flushing *)
Lemma db_set_storage_eq d a k v :
  db_set_storage d a k v = Db (db_accounts d) (storages_set (db_storages d) a k v).
Proof. done. Qed.
Lemma flush_destroyed_spec m d :
  db_accounts (flush_destroyed m d) = db_accounts d /\
  (forall a k, slot_of (db_storages (flush_destroyed m d)) a k
     = if default 0 (m !! a) =? 0 then slot_of (db_storages d) a k else 0) /\
  (clean_storages (db_storages d) -> clean_storages (db_storages (flush_destroyed m d))).
Proof.
  unfold flush_destroyed. apply (map_fold_ind (fun r m => db_accounts r = db_accounts d /\
    (forall a k, slot_of (db_storages r) a k
       = if default 0 (m !! a) =? 0 then slot_of (db_storages d) a k else 0) /\
    (clean_storages (db_storages d) -> clean_storages (db_storages r)))).
  - done.
  - intros i n m' r Hi (A & S & C). destruct (N.eqb_spec n 0) as [->|Hn].
    + split; [done|]. split; [|done]. intros a k. rewrite S. destruct (decide (i = a)) as [<-|].
      * by rewrite lookup_insert, Hi.
      * by rewrite lookup_insert_ne.
    + split; [done|]. cbn [db_storages db_destroy_storage]. split; [|intros; by apply clean_storages_delete, C].
      intros a k. destruct (decide (i = a)) as [<-|].
      * rewrite lookup_insert. unfold slot_of. rewrite lookup_delete. cbn. by rewrite (proj2 (N.eqb_neq _ _) Hn).
      * rewrite lookup_insert_ne by done. rewrite <- S. unfold slot_of. by rewrite lookup_delete_ne.
Qed.
Lemma flush_accounts_spec m d :
  db_storages (flush_accounts m d) = db_storages d /\
  forall a, db_accounts (flush_accounts m d) !! a
    = match m !! a with Some v => v | None => db_accounts d !! a end.
Proof.
  unfold flush_accounts. apply (map_fold_ind (fun r m => db_storages r = db_storages d /\
    forall a, db_accounts r !! a = match m !! a with Some v => v | None => db_accounts d !! a end)).
  - done.
  - intros i v m' r Hi (S & A). split; [done|]. intros a. cbn [db_accounts db_set_account].
    unfold account_trie_set. destruct (decide (i = a)) as [<-|].
    + rewrite lookup_insert. destruct v; [by rewrite lookup_insert|by rewrite lookup_delete].
    + rewrite lookup_insert_ne by done. rewrite <- A.
      destruct v; [by rewrite lookup_insert_ne|by rewrite lookup_delete_ne].
Qed.
Lemma flush_slots_spec b m d :
  db_accounts (flush_slots b m d) = db_accounts d /\
  (forall a k, slot_of (db_storages (flush_slots b m d)) a k
     = if decide (a = b) then default (slot_of (db_storages d) a k) (m !! k) else slot_of (db_storages d) a k) /\
  (clean_storages (db_storages d) -> clean_storages (db_storages (flush_slots b m d))).
Proof.
  unfold flush_slots. apply (map_fold_ind (fun r m => db_accounts r = db_accounts d /\
    (forall a k, slot_of (db_storages r) a k
       = if decide (a = b) then default (slot_of (db_storages d) a k) (m !! k) else slot_of (db_storages d) a k) /\
    (clean_storages (db_storages d) -> clean_storages (db_storages r)))).
  - split; [done|]. split; [|done]. intros a k. rewrite lookup_empty. cbn. by destruct (decide (a = b)).
  - intros i v m' r Hi (A & S & C). rewrite db_set_storage_eq. cbn [db_accounts db_storages].
    split; [done|]. split; [|intros; by apply clean_storages_set, C].
    intros a k. rewrite slot_of_set, S. destruct (decide (a = b)) as [->|].
    + destruct (decide (i = k)) as [<-|].
      * rewrite decide_True by done. by rewrite lookup_insert.
      * rewrite decide_False by tauto. by rewrite lookup_insert_ne.
    + rewrite decide_False by (intros [? _]; congruence). done.
Qed.
Lemma flush_storage_spec m d :
  db_accounts (flush_storage m d) = db_accounts d /\
  (forall a k, slot_of (db_storages (flush_storage m d)) a k
     = default (slot_of (db_storages d) a k) (default ∅ (m !! a) !! k)) /\
  (clean_storages (db_storages d) -> clean_storages (db_storages (flush_storage m d))).
Proof.
  unfold flush_storage. apply (map_fold_ind (fun r (m : gmap N (gmap N N)) => db_accounts r = db_accounts d /\
    (forall a k, slot_of (db_storages r) a k
       = default (slot_of (db_storages d) a k) (default ∅ (m !! a) !! k)) /\
    (clean_storages (db_storages d) -> clean_storages (db_storages r)))).
  - split; [done|]. split; [|done]. intros a k. rewrite lookup_empty. cbn. by rewrite lookup_empty.
  - intros i t m' r Hi (A & S & C). destruct (flush_slots_spec i t r) as (A' & S' & C').
    split; [congruence|]. split; [|auto]. intros a k. rewrite S', S. destruct (decide (a = i)) as [->|].
    + rewrite lookup_insert, Hi. cbn. by rewrite lookup_empty.
    + by rewrite lookup_insert_ne by done.
Qed.
Lemma flush_views s m sto : views s m sto ->
  (forall a, db_accounts (d_db (flush s)) !! a = m !! a) /\
  (forall a k, slot_of (db_storages (d_db (flush s))) a k = slot_of sto a k).
Proof.
  intros [V1 V2]. cbn [flush d_db].
  destruct (flush_storage_spec (dirty_storage s) (flush_accounts (dirty_accounts s)
    (flush_destroyed (destroyed_accounts s) (d_db s)))) as (A1 & S1 & _).
  destruct (flush_accounts_spec (dirty_accounts s) (flush_destroyed (destroyed_accounts s) (d_db s))) as (A2 & S2).
  destruct (flush_destroyed_spec (destroyed_accounts s) (d_db s)) as (A3 & S3 & _). split.
  - intros a. rewrite A1, S2, A3, <- V1. done.
  - intros a k. rewrite S1, A2, S3, <- V2, d_get_storage_overlay.
    fold (overlay s a). fold (destroyed s a). by destruct (overlay s a !! k).
Qed.
Lemma flush_clean s : clean_storages (db_storages (d_db s)) -> clean_storages (db_storages (d_db (flush s))).
Proof.
  intros H. cbn [flush d_db]. apply flush_storage_spec.
  destruct (flush_accounts_spec (dirty_accounts s) (flush_destroyed (destroyed_accounts s) (d_db s))) as [-> _].
  by apply flush_destroyed_spec.
Qed.
(** With nothing pending the database is what is seen. *)
Lemma settled_views d rs j c m sto :
  (forall a, db_accounts d !! a = m !! a) /\ (forall a k, slot_of (db_storages d) a k = slot_of sto a k) ->
  views (DState d ∅ ∅ ∅ rs j c) m sto.
Proof.
  intros [A S]. split.
  - intros a. unfold d_get_account_optional; cbn. by rewrite lookup_empty.
  - intros a k. unfold d_get_storage; cbn. rewrite lookup_empty. cbn.
    unfold destroyed; cbn. rewrite lookup_empty. cbn. apply S.
Qed.
Lemma settled_marked d rs j c g : marked (DState d ∅ ∅ ∅ rs j c) g.
Proof.
  split; intros a.
  - unfold overlay; cbn. by rewrite lookup_empty.
  - unfold destroyed; cbn. by rewrite lookup_empty.
Qed.
Lemma backs_length s j rs sn gs : backs s j rs sn gs -> length rs = length sn /\ length rs = length gs.
Proof.
  revert s j sn gs. induction rs as [|r rs IH]; intros s j [|[m sto] sn] [|g gs] H; try done.
  destruct H as (l & j1 & s1 & _ & _ & _ & _ & _ & B). apply IH in B. cbn. lia.
Qed.

(** ** Simulation of every action *)
Definition next_marks (x : action) (w : world) (g : marks) (gs : list marks) : marks * list marks :=
  match x with
  | ABegin => let g0 := match snapshots (st w) with [] => (∅, ∅) | _ => g end in (g0, g0 :: gs)
  | ACommit => (g, tail gs)
  | ARollback => (hd g gs, tail gs)
  | AOp o => (mark_op o (st w) g, gs)
  end.
Lemma sim_step x w d g gs w' : sim w d g gs ->
  (match x with AOp o => tame_op o (st w) g | _ => True end) -> step x w = Ok w' ->
  exists d', d_step x d = Ok d' /\ sim w' d' (next_marks x w g gs).1 (next_marks x w g gs).2.
Proof.
  intros [V B M C DB CR TS DP OR] HT H.
  pose proof (backs_length _ _ _ _ _ B) as [BL1 BL2].
  destruct x as [| | |o]; cbn [step d_step next_marks fst snd] in *.
  - (* begin *)
    injection H as <-. eexists. split; [reflexivity|].
    destruct (snapshots (st w)) as [|sn0 sn] eqn:Es.
    + assert (Er : tx_restore_points (dst d) = []) by (by destruct (tx_restore_points (dst d))).
      assert (Eg : gs = []) by (rewrite Er in BL2; by destruct gs). subst gs.
      pose proof (flush_views _ _ _ V) as F.
      unfold d_begin_transaction, d_begin_state. rewrite Er.
      constructor; cbn [st dst dts ts main_trie storage_tries snapshots created_accounts begin_transaction
        d_db dirty_accounts dirty_storage destroyed_accounts tx_restore_points journal d_created].
      * by apply settled_views.
      * rewrite Es. cbn [tx_restore_points flush journal]. rewrite Er.
        exists [], (journal (dst d)). eexists. split; [done|]. split; [done|]. split; [done|].
        split; [by apply settled_views|]. split; [apply settled_marked|]. done.
      * apply settled_marked.
      * by apply clean_begin.
      * by apply flush_clean.
      * done.
      * by rewrite TS.
      * cbn. by rewrite DP, Es.
      * intros m sto. rewrite Es. intros [= <- <-] a k. apply F.
    + assert (Er : tx_restore_points (dst d) <> []) by (by destruct (tx_restore_points (dst d))).
      unfold d_begin_transaction, d_begin_state.
      destruct (tx_restore_points (dst d)) as [|r rs] eqn:Er'; [done|].
      constructor; cbn [st dst dts ts main_trie storage_tries snapshots created_accounts begin_transaction
        d_db dirty_accounts dirty_storage destroyed_accounts tx_restore_points journal d_created].
      * done.
      * rewrite Es, Er'. exists [], (journal (dst d)). eexists. split; [done|]. split; [done|]. split; [done|].
        split; [done|]. split; [done|]. eapply backs_le; [|exact B]. by constructor; auto.
      * done.
      * by apply clean_begin.
      * done.
      * done.
      * by rewrite TS.
      * cbn. by rewrite DP, Es.
      * intros m sto E. rewrite Es in E. by apply (OR m sto).
  - (* commit *)
    pose proof (clean_commit _ _ H C) as C'.
    unfold commit_transaction in H. destruct (snapshots (st w)) as [|[m0 sto0] sn] eqn:Es; [done|].
    destruct (ts_snapshots (ts w)) as [|t0 tn] eqn:Et; [done|]. injection H as <-.
    unfold d_commit_transaction, d_commit_state.
    destruct (tx_restore_points (dst d)) as [|r rs] eqn:Er; [done|]. destruct gs as [|g0 gs]; [done|].
    destruct B as (l & j1 & s1 & Ej & Hr & U & V1 & M1 & B).
    destruct rs as [|r1 rs].
    + destruct sn as [|]; [|done]. destruct gs; [|done].
      pose proof (flush_views (DState (d_db (dst d)) (dirty_accounts (dst d)) (dirty_storage (dst d))
                     (destroyed_accounts (dst d)) [] [] ∅) _ _ V) as F.
      eexists. split; [reflexivity|]. constructor; cbn [st dst dts ts main_trie storage_tries snapshots
        created_accounts tail created_after_pop].
      * by apply settled_views.
      * done.
      * apply settled_marked.
      * done.
      * by apply (flush_clean (DState (d_db (dst d)) (dirty_accounts (dst d)) (dirty_storage (dst d))
                     (destroyed_accounts (dst d)) [] [] ∅)).
      * done.
      * rewrite TS, Et. done.
      * cbn in *. lia.
      * done.
    + destruct sn as [|[m2 sto2] sn]; [done|]. destruct gs as [|g2 gs]; [done|].
      eexists. split; [reflexivity|]. constructor; cbn [st dst dts ts main_trie storage_tries snapshots
        created_accounts tail created_after_pop d_db dirty_accounts dirty_storage destroyed_accounts
        tx_restore_points journal d_created].
      * done.
      * destruct B as (l2 & j2 & s2 & -> & Hr2 & U2 & V2 & M2 & B). rewrite Ej.
        assert (L : le (dst d) (DState (d_db (dst d)) (dirty_accounts (dst d)) (dirty_storage (dst d))
          (destroyed_accounts (dst d)) (r1 :: rs) (l ++ l2 ++ j2) (d_created (dst d)))) by (constructor; auto).
        rewrite <- Ej in L |- *.
        eapply backs_le; [exact L|]. rewrite Ej. exists (l ++ l2), j2, s2. rewrite app_assoc.
        split; [done|]. split; [done|]. split; [by eapply undone_app|]. done.
      * done.
      * done.
      * done.
      * done.
      * rewrite TS, Et. done.
      * cbn in *. lia.
      * intros m sto Hl. apply (OR m sto). exact Hl.
  - (* rollback *)
    pose proof (clean_rollback _ _ H C) as C'.
    unfold rollback_transaction in H. destruct (snapshots (st w)) as [|[m0 sto0] sn] eqn:Es; [done|].
    destruct (ts_snapshots (ts w)) as [|t0 tn] eqn:Et; [done|]. injection H as <-.
    unfold d_rollback_transaction, d_rollback_state.
    destruct (tx_restore_points (dst d)) as [|r rs] eqn:Er; [done|]. destruct gs as [|g0 gs]; [done|].
    destruct B as (l & j1 & s1 & Ej & Hr & U & V1 & M1 & B).
    destruct (undo_done l j1 (dst d) s1 r U Hr) as (s1' & EU & ->). rewrite Ej, EU.
    assert (Hdb : d_db s1 = d_db (dst d) /\ d_created s1 = d_created (dst d)).
    { clear - U. revert U. generalize (dst d). induction l as [|i l IH]; intros s U; [by cbn in U; subst|].
      destruct U as (s0 & [E _] & U). apply IH in U as [-> ->].
      destruct i as [a k [v|]|a t|a [v|]]; cbn [undo_item] in E.
      - destruct (dirty_storage s !! a); [|done]. by injection E as <-.
      - destruct (dirty_storage s !! a) as [t|]; [|done]. destruct (t !! k); [|done]. by injection E as <-.
      - destruct (_ =? 0); [done|]. destruct (_ =? 1); by injection E as <-.
      - by injection E as <-.
      - destruct (dirty_accounts s !! a); [|done]. by injection E as <-. }
    destruct Hdb as [Hdb Hcr].
    eexists. split; [reflexivity|]. constructor; cbn [st dst dts ts main_trie storage_tries snapshots
        created_accounts tail hd d_db dirty_accounts dirty_storage destroyed_accounts
        tx_restore_points journal d_created set_journal].
    + done.
    + eapply backs_le; [|exact B]. constructor; auto.
    + done.
    + done.
    + by rewrite Hdb.
    + rewrite Hcr, CR. by destruct rs, sn.
    + rewrite TS, Et. done.
    + cbn in *. lia.
    + intros m sto Hl a k. rewrite Hdb. destruct sn as [|p sn]; [done|]. apply (OR m sto). exact Hl.
  - (* operation *)
    pose proof (clean_run_op _ _ _ H C) as C'.
    assert (Hs : tx_restore_points (dst d) = [] \/
      (forall b, In b (destroys o (st w)) -> ~ (b ∈ g.1 /\ b ∈ g.2))).
    { destruct HT as [HT|HT]; [|by right]. left. rewrite HT in BL1. by destruct (tx_restore_points (dst d)). }
    assert (Hm : (exists a, o = OpMarkCreated a) \/ forall a, o <> OpMarkCreated a)
      by (destruct o; try (by right); left; by eexists).
    destruct Hm as [[a ->]|Hm].
    + injection H as <-. eexists. split; [reflexivity|]. destruct M as [M1 M2].
      constructor; cbn [st dst dts ts set_st mark_account_created main_trie storage_tries snapshots
        created_accounts d_mark_account_created d_db dirty_accounts dirty_storage destroyed_accounts
        tx_restore_points journal d_created mark_op destroys writes fold_left fst snd]; try done.
      * eapply backs_le; [|exact B]. constructor; auto.
      * split; [|done]. intros b Hb. apply M1 in Hb. cbn. set_solver.
      * by rewrite CR.
    + destruct (op_follows o w d g w' V M TS Hs Hm H) as (d' & E & TS' & [S1 S2 S3 (l & s0 & S4 & S5)] & V' & M').
      exists d'. split; [done|].
      assert (HS : snapshots (st w') = snapshots (st w) /\ created_accounts (st w') = created_accounts (st w) /\
        ts_snapshots (ts w') = ts_snapshots (ts w)).
      { clear - H Hm. destruct o; cbn [run_op] in H; unfold on_state in H.
        - by injection H as <-.
        - injection H as <-. cbn. by rewrite destroy_storage_snapshots, destroy_storage_created.
        - injection H as <-. cbn. by rewrite destroy_storage_snapshots, destroy_storage_created.
        - by destruct (Hm a).
        - destruct (set_storage _ _ _ _) as [s|] eqn:E; [|done]. injection H as <-.
          by apply set_storage_inv in E as [_ ->].
        - injection H as <-. cbn. by rewrite set_transient_unfold.
        - destruct (move_ether _ _ _ _) as [s|] eqn:E; [|done]. injection H as <-.
          apply move_ether_storages_sub in E as [E1 E2]. by split.
        - destruct (set_account_balance _ _ _) as [s|] eqn:E; [|done]. injection H as <-. cbn.
          by rewrite (modify_state_snapshots _ _ _ _ E), (modify_state_created _ _ _ _ E).
        - destruct (increment_nonce _ _) as [s|] eqn:E; [|done]. injection H as <-. cbn.
          by rewrite (modify_state_snapshots _ _ _ _ E), (modify_state_created _ _ _ _ E).
        - destruct (set_code _ _ _) as [s|] eqn:E; [|done]. injection H as <-. cbn.
          by rewrite (modify_state_snapshots _ _ _ _ E), (modify_state_created _ _ _ _ E). }
      destruct HS as (HS1 & HS2 & HS3). constructor; try done.
      * rewrite S2, S4, HS1. destruct S5 as [S5|[S5 S6]]; [|by eapply backs_push].
        rewrite S5 in *. destruct (snapshots (st w)); [|done]. by destruct gs.
      * by rewrite S1.
      * by rewrite S3, HS2.
      * by rewrite HS3, HS1.
      * intros m sto. rewrite HS1, S1. apply OR.
Qed.

Lemma sim_agree w d g gs : sim w d g gs -> agree w d.
Proof.
  intros [V B M C DB CR TS DP OR]. pose proof V as [V1 V2].
  split; [exact V1|]. split; [intros a; by apply seen_get|]. split; [exact V2|].
  split; [|split; [|split]].
  - intros a k v. unfold get_storage_original, d_get_storage_original. rewrite CR.
    destruct (decide (a ∈ created_accounts (st w))); [congruence|].
    destruct (last (snapshots (st w))) as [[m sto]|] eqn:E; [|done]. intros [= <-].
    by apply (OR m sto).
  - intros a Ha. unfold account_has_storage in Ha.
    destruct (storage_tries (st w) !! a) as [t|] eqn:E; [|done].
    destruct C as [[C _] _]. destruct (C _ _ E) as [Hne Hv].
    destruct (map_choose t Hne) as (k & v & Hk).
    assert (Hs : d_get_storage (dst d) a k = v).
    { rewrite V2. unfold slot_of. rewrite E. unfold slot_trie_get. by rewrite Hk. }
    apply Hv in Hk. unfold d_account_has_storage. rewrite d_get_storage_overlay in Hs. fold (overlay (dst d) a).
    destruct (overlay (dst d) a !! k) as [x|] eqn:Ex.
    + assert (existsb (fun kv => negb (kv.2 =? 0)) (map_to_list (overlay (dst d) a)) = true) as ->; [|done].
      apply existsb_exists. exists (k, x). split; [by apply elem_of_list_In, elem_of_map_to_list|].
      cbn. subst x. by rewrite (proj2 (N.eqb_neq _ _) Hk).
    + destruct (existsb _ _); [done|]. destruct (destroyed (dst d) a =? 0); [|congruence].
      unfold db_has_storage, db_get_storage in *. destruct (db_storages _ !! a); [done|congruence].
  - intros a k. by rewrite TS.
  - apply backs_length in B as [B _]. unfold lenN. by rewrite B.
Qed.

Lemma sim_steps l : forall w d g gs w', sim w d g gs -> tame l w g gs -> steps l w = Ok w' ->
  exists d' g' gs', d_steps l d = Ok d' /\ sim w' d' g' gs'.
Proof.
  induction l as [|x l IH]; intros w d g gs w' S T H.
  - injection H as <-. by exists d, g, gs.
  - cbn [steps tame d_steps] in *. destruct T as [T1 T2].
    destruct (step x w) as [w1|] eqn:E; [|done].
    destruct (sim_step _ _ _ _ _ _ S T1 E) as (d1 & -> & S1).
    eapply IH; [exact S1| |exact H]. by destruct x.
Qed.

(** ** C44 *)
(** A state outside of any transaction, stored in a database. *)
Definition load (w : world) : dworld :=
  DWorld (DState (Db (main_trie (st w)) (storage_tries (st w))) ∅ ∅ ∅ [] [] (created_accounts (st w))) (ts w).
Lemma load_sim w : clean_world w -> snapshots (st w) = [] -> ts_snapshots (ts w) = [] ->
  sim w (load w) (∅, ∅) [].
Proof.
  intros C Hs Ht. constructor; cbn [load dst dts d_db tx_restore_points journal db_storages db_accounts d_created];
    try done.
  - by rewrite Hs.
  - by destruct C as [[C _] _].
  - by rewrite Hs, Ht.
  - by rewrite Hs.
Qed.

(** Whatever calls are made, in whatever nesting of transactions, if the
    reference state executes them so does the database-backed one, and no
    read of an account or of a storage slot can tell the two apart. *)
Theorem C44_refines l w w' : clean_world w -> snapshots (st w) = [] -> ts_snapshots (ts w) = [] ->
  tame l w (∅, ∅) [] -> steps l w = Ok w' ->
  exists d', d_steps l (load w) = Ok d' /\ agree w' d'.
Proof.
  intros C Hs Ht T H. destruct (sim_steps _ _ _ _ _ _ (load_sim w C Hs Ht) T H) as (d' & g' & gs' & E & S).
  exists d'. split; [done|]. by eapply sim_agree.
Qed.

Lemma clean_eq (m1 m2 : storages) : clean_storages m1 -> clean_storages m2 ->
  (forall a k, slot_of m1 a k = slot_of m2 a k) -> m1 = m2.
Proof.
  intros C1 C2 H. apply map_eq. intros a.
  destruct (m1 !! a) as [t1|] eqn:E1, (m2 !! a) as [t2|] eqn:E2; [|exfalso|exfalso|done].
  - f_equal. apply map_eq. intros k. specialize (H a k). unfold slot_of, slot_trie_get in H. rewrite E1, E2 in H.
    destruct (C1 _ _ E1) as [_ Z1], (C2 _ _ E2) as [_ Z2].
    destruct (t1 !! k) as [v1|] eqn:K1, (t2 !! k) as [v2|] eqn:K2; cbn in H; try done.
    + by subst.
    + subst. by apply Z1 in K1.
    + subst. by apply Z2 in K2.
  - assert (m1 !! a = None); [|congruence]. apply clean_has_storage; [done|]. intros k. rewrite H.
    unfold slot_of. by rewrite E2.
  - assert (m2 !! a = None); [|congruence]. apply clean_has_storage; [done|]. intros k. rewrite <- H.
    unfold slot_of. by rewrite E1.
Qed.

(** Outside of transactions, flushing leaves in the database exactly the
    accounts and the storage of the reference (so the same state root). *)
Theorem C44_flush l w w' : clean_world w -> snapshots (st w) = [] -> ts_snapshots (ts w) = [] ->
  tame l w (∅, ∅) [] -> steps l w = Ok w' -> snapshots (st w') = [] ->
  exists d', d_steps l (load w) = Ok d' /\ tx_restore_points (dst d') = [] /\
    d_db (flush (dst d')) = Db (main_trie (st w')) (storage_tries (st w')).
Proof.
  intros C Hs Ht T H Hs'. destruct (sim_steps _ _ _ _ _ _ (load_sim w C Hs Ht) T H) as (d' & g' & gs' & E & S).
  exists d'. split; [done|]. destruct S as [V B M C' DB CR TS DP OR]. split.
  - rewrite Hs' in B. destruct (tx_restore_points (dst d')); [done|]. by destruct B.
  - destruct (flush_views _ _ _ V) as [F1 F2]. pose proof (flush_clean _ DB) as F3.
    destruct (d_db (flush (dst d'))) as [da ds]. cbn in *. f_equal.
    + by apply map_eq.
    + apply clean_eq; [done|by destruct C' as [[C' _] _]|done].
Qed.

(** The storage test is also exact when no slot of the address has a pending
    zero. *)
Theorem C44_has_storage l w w' a : clean_world w -> snapshots (st w) = [] -> ts_snapshots (ts w) = [] ->
  tame l w (∅, ∅) [] -> steps l w = Ok w' ->
  exists d', d_steps l (load w) = Ok d' /\
    ((forall k, default ∅ (dirty_storage (dst d') !! a) !! k <> Some 0) ->
     d_account_has_storage (dst d') a = account_has_storage (st w') a).
Proof.
  intros C Hs Ht T H. destruct (sim_steps _ _ _ _ _ _ (load_sim w C Hs Ht) T H) as (d' & g' & gs' & E & S).
  exists d'. split; [done|]. intros Hz. pose proof (sim_agree _ _ _ _ S) as (_ & _ & _ & _ & A & _).
  destruct (account_has_storage (st w') a) eqn:E1; [by apply A|].
  destruct S as [[_ V2] _ _ _ DB _ _ _ _].
  assert (Z : forall k, d_get_storage (dst d') a k = 0).
  { intros k. rewrite V2. unfold slot_of. unfold account_has_storage in E1. by destruct (storage_tries _ !! a). }
  fold (overlay (dst d') a) in Hz.
  assert (O : overlay (dst d') a = ∅).
  { apply map_eq. intros k. rewrite lookup_empty. specialize (Z k). rewrite d_get_storage_overlay in Z.
    destruct (overlay (dst d') a !! k) eqn:Ek; [|done]. subst. by apply Hz in Ek. }
  unfold d_account_has_storage. fold (overlay (dst d') a). rewrite O, map_to_list_empty. cbn.
  destruct (destroyed (dst d') a =? 0) eqn:Ed; [|done].
  unfold db_has_storage. destruct (db_storages (d_db (dst d')) !! a) as [t|] eqn:Et; [|done]. exfalso.
  destruct (DB _ _ Et) as [Hne Hv]. destruct (map_choose t Hne) as (k & v & Hk).
  specialize (Z k). rewrite d_get_storage_overlay, O, lookup_empty, Ed in Z.
  unfold db_get_storage, slot_trie_get in Z. rewrite Et, Hk in Z. cbn in Z. subst. by apply Hv in Hk.
Qed.

(** ** Where the two differ *)
(** Account 1 with one storage slot. *)
Definition ex_world : world :=
  World (State {[ 1 := Account 1 0 [] ]} {[ 1 := {[ 5 := 9 ]} ]} [] ∅) empty_transient.
Lemma ex_world_clean : clean_world ex_world.
Proof.
  split; [split|split].
  - intros a t H. cbn in H. apply lookup_singleton_Some in H as [<- <-]. split; [done|].
    intros k v H. apply lookup_singleton_Some in H as [<- <-]. done.
  - done.
  - intros a t H. cbn in H. by rewrite lookup_empty in H.
  - done.
Qed.

(** Destroying, writing, and destroying again in an inner transaction that is
    rolled back loses the write. *)
Definition ex_twice : list action :=
  [ABegin; AOp (OpDestroyStorage 1); AOp (OpSetStorage 1 5 7); ABegin; AOp (OpDestroyStorage 1); ARollback].
Definition read_both (l : list action) (w : world) (a k : N) : option (N * N) :=
  match steps l w, d_steps l (load w) with
  | Ok w', Ok d' => Some (get_storage (st w') a k, d_get_storage (dst d') a k)
  | _, _ => None
  end.
Theorem C44_destroy_twice_refuted : exists l w a k x y,
  clean_world w /\ snapshots (st w) = [] /\ ts_snapshots (ts w) = [] /\
  read_both l w a k = Some (x, y) /\ x <> y.
Proof.
  exists ex_twice, ex_world, 1, 5, 7, 0. split; [apply ex_world_clean|]. vm_compute. repeat split; discriminate.
Qed.
(** Rolling back the outer transaction too then raises KeyError. *)
Definition crashes {A} (r : result A) : option crash := match r with Raise c => Some c | Ok _ => None end.
Theorem C44_crash_refuted : exists l w,
  clean_world w /\ snapshots (st w) = [] /\ ts_snapshots (ts w) = [] /\
  crashes (steps l w) = None /\ crashes (d_steps l (load w)) = Some KeyError.
Proof.
  exists (ex_twice ++ [ARollback]), ex_world. split; [apply ex_world_clean|]. vm_compute. done.
Qed.
(** An account whose only slot has been set to zero in the current
    transaction still has storage for the database-backed state. *)
Theorem C44_has_storage_refuted : exists l w,
  clean_world w /\ snapshots (st w) = [] /\ ts_snapshots (ts w) = [] /\ tame l w (∅, ∅) [] /\
  match steps l w, d_steps l (load w) with
  | Ok w', Ok d' => account_has_storage (st w') 1 = false /\ d_account_has_storage (dst d') 1 = true
  | _, _ => False
  end.
Proof.
  exists [ABegin; AOp (OpSetStorage 1 5 0)], ex_world. split; [apply ex_world_clean|].
  split; [done|]. split; [done|]. split.
  - split; [done|]. cbn [step tame]. split; [|done]. by right.
  - vm_compute. done.
Qed.

(** ** Non-vacuity *)
(** Nested transactions with a destruction that is rolled back, a write in
    the outer one and a transfer. *)
Definition ex_actions : list action :=
  [ABegin; AOp (OpSetStorage 1 6 8); ABegin; AOp (OpDestroyStorage 1); AOp (OpSetStorage 1 5 1);
   AOp (OpSetBalance 2 10); ARollback; AOp (OpSetBalance 1 3); AOp (OpMoveEther 1 2 2)].
Definition tame_op_b (o : state_op) (s : state) (g : marks) : bool :=
  match snapshots s with
  | [] => true
  | _ => forallb (fun a => negb (bool_decide (a ∈ g.1) && bool_decide (a ∈ g.2))) (destroys o s)
  end.
Fixpoint tame_b (l : list action) (w : world) (g : marks) (gs : list marks) : bool :=
  match l with
  | [] => true
  | x :: l =>
      (match x with AOp o => tame_op_b o (st w) g | _ => true end) &&
      match step x w with
      | Raise _ => true
      | Ok w' => tame_b l w' (next_marks x w g gs).1 (next_marks x w g gs).2
      end
  end.
Lemma tame_b_ok l : forall w g gs, tame_b l w g gs = true -> tame l w g gs.
Proof.
  induction l as [|x l IH]; intros w g gs H; [done|]. cbn [tame_b tame] in *.
  apply andb_prop in H as [H1 H2]. split.
  - destruct x as [| | |o]; try done. unfold tame_op_b in H1. unfold tame_op.
    destruct (snapshots (st w)); [by left|right]. rewrite forallb_forall in H1.
    intros a Ha [G1 G2]. specialize (H1 a Ha). by rewrite !bool_decide_true in H1.
  - destruct (step x w) as [w'|]; [|done]. destruct x; by apply IH.
Qed.
Example C44_nonvacuous :
  clean_world ex_world /\ tame ex_actions ex_world (∅, ∅) [] /\
  match steps ex_actions ex_world with
  | Ok w' => (get_storage (st w') 1 5 = 9 /\ get_storage (st w') 1 6 = 8) /\
             balance (get_account (st w') 2) = 2 /\ snapshots (st w') <> []
  | Raise _ => False
  end.
Proof.
  split; [apply ex_world_clean|]. split; [apply tame_b_ok; by vm_compute|]. vm_compute. repeat split; discriminate.
Qed.

Definition PropStateDb_theorems :=
  (@C44_refines, @C44_flush, @C44_has_storage, @C44_destroy_twice_refuted, @C44_crash_refuted,
   @C44_has_storage_refuted).
Print Assumptions PropStateDb_theorems.
