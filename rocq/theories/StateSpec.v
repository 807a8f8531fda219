(** * StateSpec: vocabulary for the properties of the state layer. *)
From Verif Require Import Base State.

(** Sum of [f k x] over a finite map. *)
Definition msum {K A} `{Countable K} (f : K -> A -> N) (m : gmap K A) : N :=
  map_fold (fun k x n => f k x + n) 0 m.

(** Sum of the balances of all accounts of a state. *)
Definition total_balance (s : state) : N :=
  msum (fun _ acc => balance acc) (main_trie s).

(** Every call a user of the state API can make, other than
    begin/commit/rollback. *)
Inductive state_op :=
| OpSetAccount (a : address) (v : option account)
| OpDestroyStorage (a : address)
| OpDestroyAccount (a : address)
| OpMarkCreated (a : address)
| OpSetStorage (a : address) (key value : N)
| OpSetTransient (a : address) (key value : N)
| OpMoveEther (sender recipient : address) (amount : N)
| OpSetBalance (a : address) (amount : N)
| OpIncrementNonce (a : address)
| OpSetCode (a : address) (c : bytes).

Definition on_state (f : state -> result state) (w : world) : result world :=
  match f (st w) with Ok s => Ok (set_st s w) | Raise c => Raise c end.

Definition run_op (o : state_op) (w : world) : result world :=
  match o with
  | OpSetAccount a v => on_state (fun s => Ok (set_account s a v)) w
  | OpDestroyStorage a => on_state (fun s => Ok (destroy_storage s a)) w
  | OpDestroyAccount a => on_state (fun s => Ok (destroy_account s a)) w
  | OpMarkCreated a => on_state (fun s => Ok (mark_account_created s a)) w
  | OpSetStorage a k v => on_state (fun s => set_storage s a k v) w
  | OpSetTransient a k v => Ok (set_ts (set_transient_storage (ts w) a k v) w)
  | OpMoveEther a b n => on_state (fun s => move_ether s a b n) w
  | OpSetBalance a n => on_state (fun s => set_account_balance s a n) w
  | OpIncrementNonce a => on_state (fun s => increment_nonce s a) w
  | OpSetCode a c => on_state (fun s => set_code s a c) w
  end.

(** A program: calls in sequence, with properly closed nested
    transactions, each either committed or rolled back. *)
Inductive prog :=
| PSkip
| POp (o : state_op)
| PSeq (p q : prog)
| PCommitted (p : prog)
| PRolledBack (p : prog).

Fixpoint run (p : prog) (w : world) : result world :=
  match p with
  | PSkip => Ok w
  | POp o => run_op o w
  | PSeq p q => match run p w with Ok w' => run q w' | Raise c => Raise c end
  | PCommitted p =>
      match run p (begin_transaction w) with
      | Ok w' => commit_transaction w' | Raise c => Raise c end
  | PRolledBack p =>
      match run p (begin_transaction w) with
      | Ok w' => rollback_transaction w' | Raise c => Raise c end
  end.

(** Two worlds that no read of an account, storage slot, transient slot or
    storage-presence test can tell apart. *)
Definition same_reads (w w' : world) : Prop :=
  (forall a, get_account_optional (st w) a = get_account_optional (st w') a) /\
  (forall a, get_account (st w) a = get_account (st w') a) /\
  (forall a k, get_storage (st w) a k = get_storage (st w') a k) /\
  (forall a, account_has_storage (st w) a = account_has_storage (st w') a) /\
  (forall a k, get_transient_storage (ts w) a k = get_transient_storage (ts w') a k).

(** The open transactions are the same. *)
Definition same_snapshots (w w' : world) : Prop :=
  snapshots (st w) = snapshots (st w') /\ ts_snapshots (ts w) = ts_snapshots (ts w').

(** Storage maps hold no zero values and no empty tries (which set_storage
    and set_transient_storage guarantee). *)
Definition clean_storages (m : storages) : Prop :=
  forall a t, m !! a = Some t ->
    t <> ∅ /\ forall k v, t !! k = Some v -> v <> 0.
Definition clean_state (s : state) : Prop :=
  clean_storages (storage_tries s) /\
  forall m sto, In (m, sto) (snapshots s) -> clean_storages sto.
Definition clean_world (w : world) : Prop :=
  clean_state (st w) /\ clean_storages (ts_tries (ts w)) /\
  forall sto, In sto (ts_snapshots (ts w)) -> clean_storages sto.
