(** * Bloom: the logs bloom filter (src/ethereum/osaka/bloom.py). *)
From Verif Require Import Base State Vm.

Section Bloom.
  Context (cr : crypto).

  (** src/ethereum/osaka/bloom.py:48-59, one pass of the loop: [bloom] is a
      bytearray of length 256; the index is always in range (it is below
      0x800 / 8), so the assignment is modelled by an in-range list update. *)
  Definition add_bit (hash : bytes) (bloom : bytes) (idx : N) : bytes :=
    let bit_to_set := N.land (from_be_bytes (sliceN idx (idx + 2) hash)) 0x07FF in
    let bit_index := 0x07FF - bit_to_set in
    let byte_index := bit_index / 8 in
    let bit_value := N.shiftl 1 (7 - bit_index mod 8) in
    match nthN bloom byte_index with
    | Some b => <[N.to_nat byte_index := byte_of_N (N.lor (Byte.to_N b) bit_value)]> bloom
    | None => bloom
    end.

  (** src/ethereum/osaka/bloom.py:30-59 *)
  Definition add_to_bloom (bloom bloom_entry : bytes) : bytes :=
    let hash := keccak256 cr bloom_entry in
    fold_left (add_bit hash) [0; 2; 4] bloom.

  (** src/ethereum/osaka/bloom.py:62-85 *)
  Definition logs_bloom (logs : list log) : bytes :=
    fold_left
      (fun bloom l =>
         fold_left (fun bloom topic => add_to_bloom bloom (to_be_bytes32 topic))
           (log_topics l)
           (add_to_bloom bloom (to_be_bytes20 (log_address l))))
      logs (zeros 256).
End Bloom.
