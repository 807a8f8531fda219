(** * StateDb: the database-backed state.

    Models src/ethereum_optimized/state_db.py, which replaces (by monkey
    patching, src/ethereum_optimized/__init__.py:27-48) the functions of
    src/ethereum/osaka/state.py that touch the representation of the state;
    the other functions of state.py then run on the replaced ones.

    Not modelled: the database itself ([rust_pyspec_glue.DB], external; taken
    to be a store of accounts and of storage slots in which a zero slot is an
    absent slot), its own begin/commit/rollback and metadata, [close_state],
    [__eq__], and the computation of roots. *)
From Verif Require Import Base State StateSpec.

(** The contents of the database. *)
Record db := Db { db_accounts : accounts; db_storages : storages }.

Definition db_set_account (d : db) (a : address) (v : option account) : db :=
  Db (account_trie_set (db_accounts d) a v) (db_storages d).
Definition db_get_storage (d : db) (a : address) (k : N) : N :=
  match db_storages d !! a with None => 0 | Some t => slot_trie_get t k end.
Definition db_set_storage (d : db) (a : address) (k v : N) : db :=
  let t := slot_trie_set (default ∅ (db_storages d !! a)) k v in
  Db (db_accounts d)
    (if decide (t = ∅) then delete a (db_storages d) else <[a := t]> (db_storages d)).
Definition db_destroy_storage (d : db) (a : address) : db :=
  Db (db_accounts d) (delete a (db_storages d)).
Definition db_has_storage (d : db) (a : address) : bool :=
  match db_storages d !! a with Some _ => true | None => false end.

(** Journal entries (src/ethereum_optimized/state_db.py:287-304, 374-379, 405-408,
    416).  [None] is [Unmodified]. *)
Inductive jitem :=
| JSlot (a : address) (k : N) (old : option N)
| JStorage (a : address) (old : slots)
| JAccount (a : address) (old : option (option account)).

(** src/ethereum_optimized/state_db.py:72-99.  The lists have their last
    element first. *)
Record dstate := DState {
  d_db : db;
  dirty_accounts : gmap address (option account);
  dirty_storage : gmap address (gmap N N);
  destroyed_accounts : gmap address N;
  tx_restore_points : list N;
  journal : list jitem;
  d_created : gset address;
}.
Record dworld := DWorld { dst : dstate; dts : transient_storage }.

(** [state.destroyed_accounts[address]] of a defaultdict; the entry that the
    lookup of an absent key creates is not recorded. *)
Definition destroyed (s : dstate) (a : address) : N := default 0 (destroyed_accounts s !! a).

(** src/ethereum_optimized/state_db.py:182-198.  The loops visit dictionary
    entries in insertion order; here the order is that of the finite map, and
    the updates of different entries commute. *)
Definition flush_destroyed (m : gmap address N) (d : db) : db :=
  map_fold (fun a n d => if n =? 0 then d else db_destroy_storage d a) d m.
Definition flush_accounts (m : gmap address (option account)) (d : db) : db :=
  map_fold (fun a v d => db_set_account d a v) d m.
Definition flush_slots (a : address) (m : gmap N N) (d : db) : db :=
  map_fold (fun k v d => db_set_storage d a k v) d m.
Definition flush_storage (m : gmap address (gmap N N)) (d : db) : db :=
  map_fold (fun a t d => flush_slots a t d) d m.
Definition flush (s : dstate) : dstate :=
  DState (flush_storage (dirty_storage s) (flush_accounts (dirty_accounts s)
            (flush_destroyed (destroyed_accounts s) (d_db s))))
    ∅ ∅ ∅ (tx_restore_points s) (journal s) (d_created s).

(** src/ethereum_optimized/state_db.py:212-218 *)
Definition d_begin_state (s : dstate) : dstate :=
  let s := match tx_restore_points s with [] => flush s | _ => s end in
  DState (d_db s) (dirty_accounts s) (dirty_storage s) (destroyed_accounts s)
    (lenN (journal s) :: tx_restore_points s) (journal s) (d_created s).

(** src/ethereum_optimized/state_db.py:223-238 *)
Definition d_begin_transaction (w : dworld) : dworld :=
  let t := dts w in
  DWorld (d_begin_state (dst w)) (TransientStorage (ts_tries t) (ts_tries t :: ts_snapshots t)).

(** src/ethereum_optimized/state_db.py:248-257 *)
Definition d_commit_state (s : dstate) : result dstate :=
  match tx_restore_points s with
  | [] => Raise IndexError
  | _ :: [] => Ok (flush (DState (d_db s) (dirty_accounts s) (dirty_storage s) (destroyed_accounts s)
                            [] [] ∅))
  | _ :: rest => Ok (DState (d_db s) (dirty_accounts s) (dirty_storage s) (destroyed_accounts s)
                       rest (journal s) (d_created s))
  end.

(** src/ethereum_optimized/state_db.py:261-271 *)
Definition d_commit_transaction (w : dworld) : result dworld :=
  match d_commit_state (dst w) with
  | Raise c => Raise c
  | Ok s => Ok (DWorld s
      match ts_snapshots (dts w) with
      | [] => dts w
      | _ :: rest => TransientStorage (ts_tries (dts w)) rest
      end)
  end.

(** One iteration of the loop of src/ethereum_optimized/state_db.py:287-304;
    [del] of an absent key, or an access to one, is KeyError. *)
Definition undo_item (i : jitem) (s : dstate) : result dstate :=
  let with_storage m := DState (d_db s) (dirty_accounts s) m (destroyed_accounts s)
                          (tx_restore_points s) (journal s) (d_created s) in
  let with_accounts m := DState (d_db s) m (dirty_storage s) (destroyed_accounts s)
                           (tx_restore_points s) (journal s) (d_created s) in
  match i with
  | JSlot a k None =>
      match dirty_storage s !! a with
      | None => Raise KeyError
      | Some t =>
          match t !! k with
          | None => Raise KeyError
          | Some _ => Ok (with_storage (<[a := delete k t]> (dirty_storage s)))
          end
      end
  | JSlot a k (Some v) =>
      match dirty_storage s !! a with
      | None => Raise KeyError
      | Some t => Ok (with_storage (<[a := <[k := v]> t]> (dirty_storage s)))
      end
  | JStorage a t =>
      if destroyed s a =? 0 then Raise OverflowError
      else if destroyed s a =? 1 then
        Ok (DState (d_db s) (dirty_accounts s) (<[a := t]> (dirty_storage s))
              (delete a (destroyed_accounts s)) (tx_restore_points s) (journal s) (d_created s))
      else
        Ok (DState (d_db s) (dirty_accounts s) (dirty_storage s)
              (<[a := destroyed s a - 1]> (destroyed_accounts s)) (tx_restore_points s) (journal s)
              (d_created s))
  | JAccount a None =>
      match dirty_accounts s !! a with
      | None => Raise KeyError
      | Some _ => Ok (with_accounts (delete a (dirty_accounts s)))
      end
  | JAccount a (Some v) => Ok (with_accounts (<[a := v]> (dirty_accounts s)))
  end.

Definition set_journal (j : list jitem) (s : dstate) : dstate :=
  DState (d_db s) (dirty_accounts s) (dirty_storage s) (destroyed_accounts s)
    (tx_restore_points s) j (d_created s).

(** [while len(state.journal) > restore_point]
    (src/ethereum_optimized/state_db.py:286-304); [j] is the journal. *)
Fixpoint undo (restore_point : N) (j : list jitem) (s : dstate) : result dstate :=
  match j with
  | [] => Ok (set_journal [] s)
  | i :: rest =>
      if lenN j <=? restore_point then Ok (set_journal j s)
      else match undo_item i s with
           | Raise c => Raise c
           | Ok s' => undo restore_point rest s'
           end
  end.

(** src/ethereum_optimized/state_db.py:281-307 *)
Definition d_rollback_state (s : dstate) : result dstate :=
  match tx_restore_points s with
  | [] => Raise IndexError
  | r :: rest =>
      match undo r (journal s) s with
      | Raise c => Raise c
      | Ok s' => Ok (DState (d_db s') (dirty_accounts s') (dirty_storage s') (destroyed_accounts s')
                       rest (journal s') (match rest with [] => ∅ | _ => d_created s' end))
      end
  end.

(** src/ethereum_optimized/state_db.py:313-324 *)
Definition d_rollback_transaction (w : dworld) : result dworld :=
  match d_rollback_state (dst w) with
  | Raise c => Raise c
  | Ok s => Ok (DWorld s
      match ts_snapshots (dts w) with
      | [] => dts w
      | t :: rest => TransientStorage t rest
      end)
  end.

(** src/ethereum_optimized/state_db.py:335-348 *)
Definition d_get_storage (s : dstate) (a : address) (k : N) : N :=
  match dirty_storage s !! a ≫= (fun t => t !! k) with
  | Some v => v
  | None => if destroyed s a =? 0 then db_get_storage (d_db s) a k else 0
  end.

(** src/ethereum_optimized/state_db.py:351-361 *)
Definition d_get_storage_original (s : dstate) (a : address) (k : N) : N :=
  if decide (a ∈ d_created s) then 0 else db_get_storage (d_db s) a k.

(** src/ethereum_optimized/state_db.py:384-396 *)
Definition d_get_account_optional (s : dstate) (a : address) : option account :=
  match dirty_accounts s !! a with
  | Some v => v
  | None => db_accounts (d_db s) !! a
  end.

(** src/ethereum_optimized/state_db.py:363-380.  Unlike state.py:295-321 there
    is no assertion that the account exists. *)
Definition d_set_storage (s : dstate) (a : address) (k v : N) : dstate :=
  let accounts := match dirty_accounts s !! a with
                  | Some _ => dirty_accounts s
                  | None => <[a := d_get_account_optional s a]> (dirty_accounts s)
                  end in
  let t := default ∅ (dirty_storage s !! a) in
  DState (d_db s) accounts (<[a := <[k := v]> t]> (dirty_storage s)) (destroyed_accounts s)
    (tx_restore_points s) (JSlot a k (t !! k) :: journal s) (d_created s).

(** src/ethereum_optimized/state_db.py:399-409 *)
Definition d_set_account (s : dstate) (a : address) (v : option account) : dstate :=
  DState (d_db s) (<[a := v]> (dirty_accounts s)) (dirty_storage s) (destroyed_accounts s)
    (tx_restore_points s) (JAccount a (dirty_accounts s !! a) :: journal s) (d_created s).

(** src/ethereum_optimized/state_db.py:412-418 *)
Definition d_destroy_storage (s : dstate) (a : address) : dstate :=
  let s' := DState (d_db s) (dirty_accounts s) (delete a (dirty_storage s))
              (<[a := destroyed s a + 1]> (destroyed_accounts s)) (tx_restore_points s)
              (JStorage a (default ∅ (dirty_storage s !! a)) :: journal s) (d_created s) in
  d_set_account s' a (d_get_account_optional s' a).

(** src/ethereum_optimized/state_db.py:421-425 *)
Definition d_mark_account_created (s : dstate) (a : address) : dstate :=
  DState (d_db s) (dirty_accounts s) (dirty_storage s) (destroyed_accounts s)
    (tx_restore_points s) (journal s) ({[ a ]} ∪ d_created s).

(** src/ethereum_optimized/state_db.py:428-441 *)
Definition d_account_has_storage (s : dstate) (a : address) : bool :=
  if existsb (fun kv => negb (kv.2 =? 0)) (map_to_list (default ∅ (dirty_storage s !! a))) then true
  else if destroyed s a =? 0 then db_has_storage (d_db s) a else false.

(** ** The functions of state.py that are not replaced *)

(** src/ethereum/osaka/state.py:144-168 *)
Definition d_get_account (s : dstate) (a : address) : account :=
  match d_get_account_optional s a with
  | Some acc => acc
  | None => EMPTY_ACCOUNT
  end.

(** src/ethereum/osaka/state.py:211-227 *)
Definition d_destroy_account (s : dstate) (a : address) : dstate :=
  d_set_account (d_destroy_storage s a) a None.

(** src/ethereum/osaka/state.py:428-452 *)
Definition d_account_exists_and_is_empty (s : dstate) (a : address) : bool :=
  match d_get_account_optional s a with
  | None => false
  | Some acc =>
      (nonce acc =? 0) && bytes_eqb (code acc) [] && (balance acc =? 0)
  end.

(** src/ethereum/osaka/state.py:475-483 *)
Definition d_modify_state (s : dstate) (a : address)
    (f : account -> result account) : result dstate :=
  match f (d_get_account s a) with
  | Raise c => Raise c
  | Ok acc =>
      let s' := d_set_account s a (Some acc) in
      Ok (if d_account_exists_and_is_empty s' a then d_destroy_account s' a else s')
  end.

(** src/ethereum/osaka/state.py:486-505 *)
Definition d_move_ether (s : dstate) (sender recipient : address) (amount : N)
  : result dstate :=
  match d_modify_state s sender (reduce_sender_balance amount) with
  | Raise c => Raise c
  | Ok s' => d_modify_state s' recipient (increase_recipient_balance amount)
  end.

(** src/ethereum/osaka/state.py:508-568 *)
Definition d_set_account_balance (s : dstate) (a : address) (amount : N) : result dstate :=
  d_modify_state s a (fun acc => Ok (Account (nonce acc) amount (code acc))).
Definition d_increment_nonce (s : dstate) (a : address) : result dstate :=
  d_modify_state s a (fun acc => Ok (Account (nonce acc + 1) (balance acc) (code acc))).
Definition d_set_code (s : dstate) (a : address) (c : bytes) : result dstate :=
  d_modify_state s a (fun acc => Ok (Account (nonce acc) (balance acc) c)).

(** ** Sequences of calls *)
Definition d_on_state (f : dstate -> result dstate) (w : dworld) : result dworld :=
  match f (dst w) with Ok s => Ok (DWorld s (dts w)) | Raise c => Raise c end.

(** The calls of [StateSpec.state_op]. *)
Definition d_run_op (o : state_op) (w : dworld) : result dworld :=
  match o with
  | OpSetAccount a v => d_on_state (fun s => Ok (d_set_account s a v)) w
  | OpDestroyStorage a => d_on_state (fun s => Ok (d_destroy_storage s a)) w
  | OpDestroyAccount a => d_on_state (fun s => Ok (d_destroy_account s a)) w
  | OpMarkCreated a => d_on_state (fun s => Ok (d_mark_account_created s a)) w
  | OpSetStorage a k v => d_on_state (fun s => Ok (d_set_storage s a k v)) w
  | OpSetTransient a k v => Ok (DWorld (dst w) (set_transient_storage (dts w) a k v))
  | OpMoveEther a b n => d_on_state (fun s => d_move_ether s a b n) w
  | OpSetBalance a n => d_on_state (fun s => d_set_account_balance s a n) w
  | OpIncrementNonce a => d_on_state (fun s => d_increment_nonce s a) w
  | OpSetCode a c => d_on_state (fun s => d_set_code s a c) w
  end.

(** A call, or the start or end of a transaction. *)
Inductive action := ABegin | ACommit | ARollback | AOp (o : state_op).

Definition d_step (x : action) (w : dworld) : result dworld :=
  match x with
  | ABegin => Ok (d_begin_transaction w)
  | ACommit => d_commit_transaction w
  | ARollback => d_rollback_transaction w
  | AOp o => d_run_op o w
  end.
Fixpoint d_steps (l : list action) (w : dworld) : result dworld :=
  match l with
  | [] => Ok w
  | x :: l => match d_step x w with Ok w' => d_steps l w' | Raise c => Raise c end
  end.

(** A fresh [State()] on an empty database. *)
Definition empty_dstate : dstate := DState (Db ∅ ∅) ∅ ∅ ∅ [] [] ∅.
