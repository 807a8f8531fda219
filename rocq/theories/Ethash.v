(** * Ethash: the proof-of-work function.

    Models src/ethereum/ethash.py and, of src/ethereum/utils/numeric.py,
    [is_prime] and the conversions between byte strings and sequences of U32.

    - [keccak512] is a parameter, like [keccak256].
    - A cache is a list of rows; the in-place updates of [generate_cache] are
      list updates.
    - [int(number**0.5)] is the integer square root. The two agree below 2^52,
      and the numbers tested here are far smaller; for larger numbers the
      floating point value may be off by one, which changes the result of
      [is_prime] only for squares of primes.
    - Conversions that raise ([U32(x)], [to_le_bytes64], indexing, [%] by
      zero) are explicit. *)
From Verif Require Import Base Vm Precompiles Transactions Fork.

(** src/ethereum/ethash.py:42-117 *)
Definition EPOCH_SIZE : N := 30000.
Definition INITIAL_CACHE_SIZE : N := 2 ^ 24.
Definition CACHE_EPOCH_GROWTH_SIZE : N := 2 ^ 17.
Definition INITIAL_DATASET_SIZE : N := 2 ^ 30.
Definition DATASET_EPOCH_GROWTH_SIZE : N := 2 ^ 23.
Definition HASH_BYTES : N := 64.
Definition MIX_BYTES : N := 128.
Definition CACHE_ROUNDS : N := 3.
Definition DATASET_PARENTS : N := 256.
Definition HASHIMOTO_ACCESSES : N := 64.

(** ** Python loops and conversions *)

(** [range(a, b)] *)
Fixpoint numbers_from (a : N) (n : nat) : list N :=
  match n with O => [] | S n => a :: numbers_from (a + 1) n end.
Definition range (a b : N) : list N := numbers_from a (N.to_nat (b - a)).
(** [for x in l: s = f(s, x)] *)
Fixpoint for_loop {A S} (l : list A) (f : S -> A -> outcome S) (s : S) : outcome S :=
  match l with
  | [] => Done s
  | x :: l => s <~ f s x ;; for_loop l f s
  end.
(** [l[i]] for a non-negative [i] *)
Definition index {A} (l : list A) (i : N) : outcome A :=
  match nthN l i with Some x => Done x | None => Fail (FCrash IndexError) end.
(** [l[i] = x] *)
Definition assign {A} (l : list A) (i : N) (x : A) : outcome (list A) :=
  if i <? lenN l then Done (<[N.to_nat i := x]> l) else Fail (FCrash IndexError).
(** [U32(x)] *)
Definition u32 (x : N) : outcome N :=
  if x <? 2 ^ 32 then Done x else Fail (FCrash OverflowError).
(** [a % b] *)
Definition umod (a b : N) : outcome N :=
  if b =? 0 then Fail (FCrash ZeroDivisionError) else Done (a mod b).
(** [U32.to_le_bytes4] and [Uint.to_le_bytes64] *)
Definition to_le_bytes4 (x : N) : bytes := rev (to_be_fixed 4 x).
Definition to_le_bytes64 (x : N) : outcome bytes :=
  if x <? 2 ^ 512 then Done (rev (to_be_fixed 64 x)) else Fail (FCrash OverflowError).
(** [tuple(f(x) for x in l)] *)
Fixpoint collect_all {A B} (f : A -> outcome B) (l : list A) : outcome (list B) :=
  match l with
  | [] => Done []
  | x :: l => y <~ f x ;; r <~ collect_all f l ;; Done (y :: r)
  end.

(** ** src/ethereum/utils/numeric.py *)

(** src/ethereum/utils/numeric.py:66-90 *)
Definition is_prime (number : N) : bool :=
  if number <=? 1 then false
  else forallb (fun x => negb (number mod x =? 0)) (range 2 (N.sqrt number + 1)).

(** src/ethereum/utils/numeric.py:93-115; [data[i:i+4]] for [i] in
    [range(0, len(data), 4)] *)
Definition le_bytes_to_uint32_sequence (data : bytes) : list N :=
  map (fun k => from_le_bytes (sliceN (4 * k) (4 * k + 4) data)) (range 0 ((lenN data + 3) / 4)).

(** src/ethereum/utils/numeric.py:118-147 *)
Definition le_uint32_sequence_to_bytes (sequence : list N) : bytes :=
  concat (map to_le_bytes4 sequence).

(** src/ethereum/utils/numeric.py:150-168 *)
Definition le_uint32_sequence_to_uint (sequence : list N) : N :=
  from_le_bytes (le_uint32_sequence_to_bytes sequence).

(** ** Sizes *)

(** src/ethereum/ethash.py:121-133 *)
Definition epoch (block_number : N) : N := block_number / EPOCH_SIZE.

(** The loops of [cache_size] and [dataset_size]: [while not is_prime(size //
    unit): size -= 2 * unit]. The bound on the number of iterations is never
    reached. *)
Definition prime_step (unit size : N) : N + outcome N :=
  if is_prime (size / unit) then inr (Done size)
  else match usub size (2 * unit) with
       | Done size => inl size
       | Fail e => inr (Fail e)
       end.
Definition prime_loop (unit size : N) : outcome N :=
  match loop_pos (N.succ_pos size) (prime_step unit) size with
  | inr r => r
  | inl _ => Fail (FEvm EOutOfFuel)
  end.

(** src/ethereum/ethash.py:136-159 *)
Definition cache_size (block_number : N) : outcome N :=
  size <~ usub (INITIAL_CACHE_SIZE + CACHE_EPOCH_GROWTH_SIZE * epoch block_number) HASH_BYTES ;;
  prime_loop HASH_BYTES size.

(** src/ethereum/ethash.py:162-189 *)
Definition dataset_size (block_number : N) : outcome N :=
  size <~ usub (INITIAL_DATASET_SIZE + DATASET_EPOCH_GROWTH_SIZE * epoch block_number) MIX_BYTES ;;
  prime_loop MIX_BYTES size.

(** src/ethereum/ethash.py:252-270 *)
Definition fnv (a b : N) : N :=
  N.land (N.lxor (a * 0x01000193) b) (2 ^ 32 - 1).

(** src/ethereum/ethash.py:273-286 *)
Definition fnv_hash (mix_integers data : list N) : outcome (list N) :=
  collect_all (fun i => a <~ index mix_integers i ;; b <~ index data i ;; Done (fnv a b))
    (range 0 (lenN mix_integers)).

(** [bytes([a ^ b for a, b in zip(x, y)])] *)
Definition xor_bytes (x y : bytes) : bytes :=
  zip_with (fun a b => byte_of_N (N.lxor (Byte.to_N a) (Byte.to_N b))) x y.

Section hashes.
  Context (C : crypto) (keccak512 : bytes -> bytes).

  (** src/ethereum/ethash.py:192-206 *)
  Definition generate_seed (block_number : N) : bytes :=
    N.iter (epoch block_number) (keccak256 C) (zeros 32).

  (** src/ethereum/ethash.py:226-230 *)
  Definition fill_cache (seed : bytes) (cache_size_words : N) : outcome (list bytes) :=
    for_loop (range 1 cache_size_words) (fun cache i =>
      previous <~ index cache (i - 1) ;;
      Done (cache ++ [keccak512 previous])) [keccak512 seed].

  (** src/ethereum/ethash.py:233-245 *)
  Definition cache_step (cache_size_words : N) (cache : list bytes) (i : N) : outcome (list bytes) :=
    k <~ umod (i + cache_size_words - 1) cache_size_words ;;
    first_cache_item <~ index cache k ;;
    own <~ index cache i ;;
    words <~ u32 cache_size_words ;;
    k <~ umod (from_le_bytes (takeN 4 own)) words ;;
    second_cache_item <~ index cache k ;;
    assign cache i (keccak512 (xor_bytes first_cache_item second_cache_item)).
  Definition cache_round (cache_size_words : N) (cache : list bytes) : outcome (list bytes) :=
    for_loop (range 0 cache_size_words) (cache_step cache_size_words) cache.

  (** src/ethereum/ethash.py:209-249 *)
  Definition generate_cache (block_number : N) : outcome (list (list N)) :=
    let seed := generate_seed block_number in
    cache_size_bytes <~ cache_size block_number ;;
    let cache_size_words := cache_size_bytes / HASH_BYTES in
    cache <~ fill_cache seed cache_size_words ;;
    cache <~ for_loop (range 0 CACHE_ROUNDS) (fun cache _ => cache_round cache_size_words cache) cache ;;
    Done (map le_bytes_to_uint32_sequence cache).

  (** src/ethereum/ethash.py:289-320 *)
  Definition dataset_parent (cache : list (list N)) (i : N) (mix_integers : list N) (j : N)
    : outcome (list N) :=
    mix_word <~ index mix_integers (j mod 16) ;;
    words <~ u32 (lenN cache) ;;
    cache_index <~ umod (fnv (N.lxor i j) mix_word) words ;;
    parent <~ index cache cache_index ;;
    fnv_hash mix_integers parent.
  Definition generate_dataset_item (cache : list (list N)) (i : N) : outcome bytes :=
    k <~ umod i (lenN cache) ;;
    row <~ index cache k ;;
    b <~ to_le_bytes64 (N.lxor (le_uint32_sequence_to_uint row) i) ;;
    let mix_integers := le_bytes_to_uint32_sequence (keccak512 b) in
    mix_integers <~ for_loop (range 0 DATASET_PARENTS) (dataset_parent cache i) mix_integers ;;
    Done (keccak512 (le_uint32_sequence_to_bytes mix_integers)).

  (** src/ethereum/ethash.py:323-337 *)
  Definition generate_dataset (block_number : N) : outcome (list bytes) :=
    dataset_size_bytes <~ dataset_size block_number ;;
    cache <~ generate_cache block_number ;;
    collect_all (generate_dataset_item cache) (range 0 (dataset_size_bytes / HASH_BYTES)).

  (** src/ethereum/ethash.py:373-381 *)
  Definition hashimoto_access (fetch_dataset_item : N -> outcome (list N)) (seed_head rows : N)
      (mix : list N) (i : N) : outcome (list N) :=
    k <~ umod i (lenN mix) ;;
    mix_word <~ index mix k ;;
    rows <~ u32 rows ;;
    parent <~ umod (fnv (N.lxor i seed_head) mix_word) rows ;;
    new_data <~ for_loop (range 0 (MIX_BYTES / HASH_BYTES)) (fun new_data j =>
      item <~ fetch_dataset_item (2 * parent + j) ;;
      Done (new_data ++ item)) [] ;;
    fnv_hash mix new_data.

  (** src/ethereum/ethash.py:383-387 *)
  Definition compress (mix : list N) : outcome (list N) :=
    collect_all (fun k =>
      let i := 4 * k in
      a <~ index mix i ;;
      b <~ index mix (i + 1) ;;
      c <~ index mix (i + 2) ;;
      d <~ index mix (i + 3) ;;
      Done (fnv (fnv (fnv a b) c) d)) (range 0 ((lenN mix + 3) / 4)).

  (** src/ethereum/ethash.py:340-392 *)
  Definition hashimoto (header_hash nonce : bytes) (dataset_size : N)
      (fetch_dataset_item : N -> outcome (list N)) : outcome (bytes * bytes) :=
    let seed_hash := keccak512 (header_hash ++ rev nonce) in
    let seed_head := from_le_bytes (takeN 4 seed_hash) in
    let rows := dataset_size / 128 in
    let words := le_bytes_to_uint32_sequence seed_hash in
    let mix := words ++ words in
    mix <~ for_loop (range 0 HASHIMOTO_ACCESSES) (hashimoto_access fetch_dataset_item seed_head rows)
             mix ;;
    compressed_mix <~ compress mix ;;
    let mix_digest := le_uint32_sequence_to_bytes compressed_mix in
    Done (mix_digest, keccak256 C (seed_hash ++ mix_digest)).

  (** src/ethereum/ethash.py:395-427 *)
  Definition hashimoto_light (header_hash nonce : bytes) (cache : list (list N)) (dataset_size : N)
    : outcome (bytes * bytes) :=
    hashimoto header_hash nonce dataset_size (fun i =>
      item <~ generate_dataset_item cache i ;;
      Done (le_bytes_to_uint32_sequence item)).
End hashes.
