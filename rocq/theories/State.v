(** * State: accounts, storage, snapshots, transient storage.

    Models src/ethereum/osaka/state.py and the dictionary part of
    src/ethereum/osaka/trie.py (Trie, copy_trie, trie_set, trie_get; 200-270).

    - An [Address] or [Bytes32] key is represented by its big-endian value.
    - A secured [Trie] is represented by its [_data] dictionary, a finite map;
      insertion order is dropped (only [root] could observe it, and
      [Trie.v] shows the root does not depend on it).
    - Snapshots are copies in Python ([copy_trie], fresh dicts), so a list of
      map values is faithful.  The innermost snapshot is the head of the list
      (the end of the Python list).
    - A Python error raised in the middle of an operation (AssertionError,
      OverflowError) is [Raise]; the partially updated state is dropped, since
      no handler of the specification resumes from such an error. *)
From Verif Require Import Base.

Notation address := N (only parsing).

(** src/ethereum/osaka/fork_types.py:32-40 *)
Record account := Account {
  nonce : N;
  balance : N;
  code : bytes;
}.

(** src/ethereum/osaka/fork_types.py:43-47 *)
Definition EMPTY_ACCOUNT : account := Account 0 0 [].

Global Instance account_eq_dec : EqDecision account.
Proof. solve_decision. Defined.

Notation slots := (gmap N N) (only parsing).
Notation storages := (gmap N (gmap N N)) (only parsing).
Notation accounts := (gmap N account) (only parsing).

(** src/ethereum/osaka/state.py:31-49 *)
Record state := State {
  main_trie : accounts;
  storage_tries : storages;
  snapshots : list (accounts * storages);
  created_accounts : gset address;
}.

(** src/ethereum/osaka/state.py:52-62 *)
Record transient_storage := TransientStorage {
  ts_tries : storages;
  ts_snapshots : list storages;
}.

(** The pair of mutable objects every frame shares:
    [block_env.state] and [tx_env.transient_storage]. *)
Record world := World { st : state; ts : transient_storage }.

Definition set_main (m : accounts) (s : state) : state :=
  State m (storage_tries s) (snapshots s) (created_accounts s).
Definition set_storages (m : storages) (s : state) : state :=
  State (main_trie s) m (snapshots s) (created_accounts s).

(** trie_set with [default = None] (src/ethereum/osaka/trie.py:229-249) *)
Definition account_trie_set (m : accounts) (a : address) (v : option account)
  : accounts :=
  match v with None => delete a m | Some acc => <[a := acc]> m end.

(** trie_set with [default = U256(0)] (src/ethereum/osaka/trie.py:229-249) *)
Definition slot_trie_set (m : slots) (k v : N) : slots :=
  if v =? 0 then delete k m else <[k := v]> m.

(** trie_get with [default = U256(0)] (src/ethereum/osaka/trie.py:252-270) *)
Definition slot_trie_get (m : slots) (k : N) : N := default 0 (m !! k).

(** src/ethereum/osaka/state.py:76-100 *)
Definition begin_transaction (w : world) : world :=
  let s := st w in let t := ts w in
  World
    (State (main_trie s) (storage_tries s)
       ((main_trie s, storage_tries s) :: snapshots s) (created_accounts s))
    (TransientStorage (ts_tries t) (ts_tries t :: ts_snapshots t)).

(** [if not state._snapshots: state.created_accounts.clear()]
    (src/ethereum/osaka/state.py:118-119 and 139-140) *)
Definition created_after_pop (snaps : list (accounts * storages))
    (created : gset address) : gset address :=
  match snaps with [] => ∅ | _ => created end.

(** src/ethereum/osaka/state.py:103-120; popping an empty list is IndexError *)
Definition commit_transaction (w : world) : result world :=
  let s := st w in let t := ts w in
  match snapshots s, ts_snapshots t with
  | _ :: rest, _ :: trest =>
      Ok (World
        (State (main_trie s) (storage_tries s) rest
           (created_after_pop rest (created_accounts s)))
        (TransientStorage (ts_tries t) trest))
  | _, _ => Raise IndexError
  end.

(** src/ethereum/osaka/state.py:123-141 *)
Definition rollback_transaction (w : world) : result world :=
  let s := st w in let t := ts w in
  match snapshots s, ts_snapshots t with
  | (m, sto) :: rest, tsm :: trest =>
      Ok (World
        (State m sto rest (created_after_pop rest (created_accounts s)))
        (TransientStorage tsm trest))
  | _, _ => Raise IndexError
  end.

(** src/ethereum/osaka/state.py:171-189 *)
Definition get_account_optional (s : state) (a : address) : option account :=
  main_trie s !! a.

(** src/ethereum/osaka/state.py:144-168 *)
Definition get_account (s : state) (a : address) : account :=
  match get_account_optional s a with
  | Some acc => acc
  | None => EMPTY_ACCOUNT
  end.

(** src/ethereum/osaka/state.py:192-208 *)
Definition set_account (s : state) (a : address) (v : option account) : state :=
  set_main (account_trie_set (main_trie s) a v) s.

(** src/ethereum/osaka/state.py:230-242 *)
Definition destroy_storage (s : state) (a : address) : state :=
  match storage_tries s !! a with
  | Some _ => set_storages (delete a (storage_tries s)) s
  | None => s
  end.

(** src/ethereum/osaka/state.py:211-227 *)
Definition destroy_account (s : state) (a : address) : state :=
  set_account (destroy_storage s a) a None.

(** src/ethereum/osaka/state.py:245-263 *)
Definition mark_account_created (s : state) (a : address) : state :=
  State (main_trie s) (storage_tries s) (snapshots s)
    ({[ a ]} ∪ created_accounts s).

(** src/ethereum/osaka/state.py:266-292 *)
Definition get_storage (s : state) (a : address) (key : N) : N :=
  match storage_tries s !! a with
  | None => 0
  | Some trie => slot_trie_get trie key
  end.

(** src/ethereum/osaka/state.py:295-321 *)
Definition set_storage (s : state) (a : address) (key value : N)
  : result state :=
  match main_trie s !! a with
  | None => Raise AssertionError
  | Some _ =>
      let trie := default ∅ (storage_tries s !! a) in
      let trie' := slot_trie_set trie key value in
      if decide (trie' = ∅)
      then Ok (set_storages (delete a (storage_tries s)) s)
      else Ok (set_storages (<[a := trie']> (storage_tries s)) s)
  end.

(** src/ethereum/osaka/state.py:369-385 *)
Definition account_exists (s : state) (a : address) : bool :=
  match get_account_optional s a with Some _ => true | None => false end.

(** src/ethereum/osaka/state.py:388-406 *)
Definition account_has_code_or_nonce (s : state) (a : address) : bool :=
  let acc := get_account s a in
  negb (nonce acc =? 0) || negb (bytes_eqb (code acc) []).

(** src/ethereum/osaka/state.py:409-425 *)
Definition account_has_storage (s : state) (a : address) : bool :=
  match storage_tries s !! a with Some _ => true | None => false end.

(** src/ethereum/osaka/state.py:428-452 *)
Definition account_exists_and_is_empty (s : state) (a : address) : bool :=
  match get_account_optional s a with
  | None => false
  | Some acc =>
      (nonce acc =? 0) && bytes_eqb (code acc) [] && (balance acc =? 0)
  end.

(** src/ethereum/osaka/state.py:455-472 *)
Definition is_account_alive (s : state) (a : address) : bool :=
  match get_account_optional s a with
  | None => false
  | Some acc => bool_decide (acc <> EMPTY_ACCOUNT)
  end.

(** src/ethereum/osaka/state.py:475-483; [f] works on a copy of the account
    ([modify] of ethereum_types.frozen), so when it raises the state is
    unchanged. *)
Definition modify_state (s : state) (a : address)
    (f : account -> result account) : result state :=
  match f (get_account s a) with
  | Raise c => Raise c
  | Ok acc =>
      let s' := set_account s a (Some acc) in
      Ok (if account_exists_and_is_empty s' a then destroy_account s' a else s')
  end.

(** src/ethereum/osaka/state.py:496-499 *)
Definition reduce_sender_balance (amount : N) (acc : account) : result account :=
  if balance acc <? amount then Raise AssertionError
  else Ok (Account (nonce acc) (balance acc - amount) (code acc)).

(** src/ethereum/osaka/state.py:501-502; the U256 addition may overflow *)
Definition increase_recipient_balance (amount : N) (acc : account)
  : result account :=
  if balance acc + amount <? U256_CEIL
  then Ok (Account (nonce acc) (balance acc + amount) (code acc))
  else Raise OverflowError.

(** src/ethereum/osaka/state.py:486-505 *)
Definition move_ether (s : state) (sender recipient : address) (amount : N)
  : result state :=
  match modify_state s sender (reduce_sender_balance amount) with
  | Raise c => Raise c
  | Ok s' => modify_state s' recipient (increase_recipient_balance amount)
  end.

(** src/ethereum/osaka/state.py:508-527 *)
Definition set_account_balance (s : state) (a : address) (amount : N)
  : result state :=
  modify_state s a (fun acc => Ok (Account (nonce acc) amount (code acc))).

(** src/ethereum/osaka/state.py:530-546 *)
Definition increment_nonce (s : state) (a : address) : result state :=
  modify_state s a
    (fun acc => Ok (Account (nonce acc + 1) (balance acc) (code acc))).

(** src/ethereum/osaka/state.py:549-568 *)
Definition set_code (s : state) (a : address) (c : bytes) : result state :=
  modify_state s a (fun acc => Ok (Account (nonce acc) (balance acc) c)).

(** src/ethereum/osaka/state.py:571-601; [_snapshots[0]] is the outermost
    snapshot, IndexError when there is none *)
Definition get_storage_original (s : state) (a : address) (key : N)
  : result N :=
  if decide (a ∈ created_accounts s) then Ok 0
  else match last (snapshots s) with
  | None => Raise IndexError
  | Some (_, original) =>
      Ok match original !! a with
         | None => 0
         | Some trie => slot_trie_get trie key
         end
  end.

(** src/ethereum/osaka/state.py:604-630 *)
Definition get_transient_storage (t : transient_storage) (a : address) (key : N)
  : N :=
  match ts_tries t !! a with
  | None => 0
  | Some trie => slot_trie_get trie key
  end.

(** src/ethereum/osaka/state.py:633-659 *)
Definition set_transient_storage (t : transient_storage) (a : address)
    (key value : N) : transient_storage :=
  let trie := default ∅ (ts_tries t !! a) in
  let trie' := slot_trie_set trie key value in
  if decide (trie' = ∅)
  then TransientStorage (delete a (ts_tries t)) (ts_snapshots t)
  else TransientStorage (<[a := trie']> (ts_tries t)) (ts_snapshots t).

Definition set_st (s : state) (w : world) : world := World s (ts w).
Definition set_ts (t : transient_storage) (w : world) : world := World (st w) t.

(** A fresh State() / TransientStorage(). *)
Definition empty_state : state := State ∅ ∅ [] ∅.
Definition empty_transient : transient_storage := TransientStorage ∅ [].
