(** * ForkCriteria: activation of forks.

    Models src/ethereum/fork_criteria.py and the class ForkTracking of
    src/ethereum_spec_tools/sync.py. A hard fork is represented by its
    criteria; a negative block number or timestamp, which the constructors
    reject (Uint, U256), has no representation. *)
From Verif Require Import Base.

(** src/ethereum/fork_criteria.py:120-205: the three subclasses *)
Inductive fork_criteria :=
| ByBlockNumber (block_number : N)
| ByTimestamp (timestamp : N)
| Unscheduled.

(** fork_criteria.py:49-70 and the constructors (:131, :164, :192):
    [_internal] *)
Definition internal (c : fork_criteria) : N * N :=
  match c with
  | ByBlockNumber n => (0, n)
  | ByTimestamp t => (1, t)
  | Unscheduled => (2, 0)
  end.

(** Comparison of Python tuples of two integers *)
Definition tuple_eqb (x y : N * N) : bool := (fst x =? fst y) && (snd x =? snd y).
Definition tuple_ltb (x y : N * N) : bool :=
  if fst x =? fst y then snd x <? snd y else fst x <? fst y.

(** fork_criteria.py:72-94 *)
Definition fc_eq (a b : fork_criteria) : bool := tuple_eqb (internal a) (internal b).
Definition fc_lt (a b : fork_criteria) : bool := tuple_ltb (internal a) (internal b).
(** The other comparisons, as [functools.total_ordering] derives them from
    [__lt__] and [__eq__]. *)
Definition fc_le (a b : fork_criteria) : bool := fc_lt a b || fc_eq a b.
Definition fc_gt (a b : fork_criteria) : bool := negb (fc_lt a b) && negb (fc_eq a b).
Definition fc_ge (a b : fork_criteria) : bool := negb (fc_lt a b).

(** fork_criteria.py:135-144, :168-177, :195-199 *)
Definition fc_check (c : fork_criteria) (block_number timestamp : N) : bool :=
  match c with
  | ByBlockNumber n => n <=? block_number
  | ByTimestamp t => t <=? timestamp
  | Unscheduled => false
  end.

(** src/ethereum_spec_tools/sync.py:49-79; the index of the active fork is
    never past the end of [ft_forks]. *)
Record fork_tracking := ForkTracking {
  ft_forks : list fork_criteria;
  ft_block_number : N;
  ft_active_fork_index : nat;
}.

(** sync.py:91-94 and :100-104: [while self.next_fork is not None and
    self.next_fork.has_activated(...)]; [later] are the forks after the active
    one. *)
Fixpoint advance_loop (later : list fork_criteria) (block_number timestamp : N) (index : nat) : nat :=
  match later with
  | [] => index
  | c :: rest =>
      if fc_check c block_number timestamp then advance_loop rest block_number timestamp (S index)
      else index
  end.

(** sync.py:87-94 *)
Definition set_block (t : fork_tracking) (block_number timestamp : N) : fork_tracking :=
  ForkTracking (ft_forks t) block_number
    (advance_loop (skipn 1 (ft_forks t)) block_number timestamp 0).

(** sync.py:96-105; the result tells whether the fork changed *)
Definition advance_block (t : fork_tracking) (timestamp : N) : bool * fork_tracking :=
  let block_number := ft_block_number t + 1 in
  let index := advance_loop (skipn (S (ft_active_fork_index t)) (ft_forks t)) block_number timestamp
                 (ft_active_fork_index t) in
  (negb (index =? ft_active_fork_index t)%nat,
   ForkTracking (ft_forks t) block_number index).
