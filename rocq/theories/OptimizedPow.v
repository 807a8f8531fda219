(** * OptimizedPow: the optimized proof-of-work check.

    Models src/ethereum_optimized/fork.py and the part of
    src/ethereum_optimized/__init__.py that puts it in place of the check of a
    fork ([monkey_patch_optimized_spec], :49-62): the functions of the fork
    that reach [validate_proof_of_work] are repeated here with that function
    as a parameter.  The library [ethash] is external: any function of the
    right type. *)
From Verif Require Import Base State Rlp Vm Transactions Trie Blocks Requests Fork Ethash Pow.

(** [int.to_bytes(32, "big")]: OverflowError above 32 bytes *)
Definition bytes32_of (x : N) : outcome bytes :=
  if x <? 2 ^ 256 then Done (to_be_bytes32 x) else Fail (FCrash OverflowError).

Section optimized.
  Context (cr : crypto).
  (** [ethash.verify(epoch_number, header_hash, mix_digest, nonce, boundary)] *)
  Context (verify : N -> bytes -> bytes -> N -> bytes -> bool).

  (** src/ethereum_optimized/fork.py:53-70 *)
  Definition optimized_proof_of_work (h : pow_header) : outcome unit :=
    let epoch_number := epoch (ph_number h) in
    let header_hash := generate_header_hash_for_pow cr h in
    limit <~ udiv (2 ^ 256) (ph_difficulty h) ;;
    boundary <~ bytes32_of limit ;;
    check (verify epoch_number header_hash (ph_mix_digest h) (from_be_bytes (ph_nonce h)) boundary).
End optimized.

Section patched.
  Context (cr : crypto) (validate_proof_of_work : pow_header -> outcome unit) (fork : pow_fork) {tx : Type}.
  Context (execute : pow_chain tx -> pow_header -> list tx -> sm pow_output).

  (** Pow.v: [validate_header] *)
  Definition patched_header (chain : pow_chain tx) (h : pow_header) : outcome unit :=
    parent <~ find_parent chain h ;;
    _ <~ check (ph_gas_used h <=? ph_gas_limit h) ;;
    _ <~ validate_fee fork h parent ;;
    let parent_has_ommers := negb (bytes_eqb (ph_ommers_hash parent) (EMPTY_OMMER_HASH cr)) in
    _ <~ check (ph_timestamp parent <? ph_timestamp h) ;;
    _ <~ check (ph_number h =? ph_number parent + 1) ;;
    _ <~ check (lenN (ph_extra_data h) <=? 32) ;;
    block_difficulty <~ calculate_block_difficulty (pf_rule fork) (ph_number h) (ph_timestamp h)
      (ph_timestamp parent) (ph_difficulty parent) parent_has_ommers ;;
    _ <~ check (ph_difficulty h =? block_difficulty) ;;
    _ <~ check (bytes_eqb (ph_parent_hash h) (pow_hash cr parent)) ;;
    _ <~ validate_dao fork h ;;
    validate_proof_of_work h.

  (** Pow.v: [validate_ommer_headers] *)
  Fixpoint patched_ommer_headers (chain : pow_chain tx) (block_number : N) (ommers : list pow_header)
    : outcome unit :=
    match ommers with
    | [] => Done tt
    | o :: ommers =>
        _ <~ check (1 <=? ph_number o) ;;
        _ <~ check (ph_number o <? block_number) ;;
        _ <~ patched_header chain o ;;
        patched_ommer_headers chain block_number ommers
    end.

  (** Pow.v: [validate_ommers] *)
  Definition patched_ommers (ommers : list pow_header) (block_header : pow_header)
      (chain : pow_chain tx) : outcome unit :=
    _ <~ check (bytes_eqb (ommers_hash cr ommers) (ph_ommers_hash block_header)) ;;
    match ommers with
    | [] => Done tt
    | _ =>
        _ <~ patched_ommer_headers chain (ph_number block_header) ommers ;;
        _ <~ check (lenN ommers <=? 2) ;;
        _ <~ check (bool_decide (NoDup (map (pow_hash cr) ommers))) ;;
        let recent := lastN (MAX_OMMER_DEPTH + 1) (pc_blocks chain) in
        let canonical := map (fun b => pow_hash cr (pb_header b)) recent in
        let included := concat (map (fun b => map (pow_hash cr) (pb_ommers b)) recent) in
        validate_ommer_ages cr block_header canonical included ommers
    end.

  (** Pow.v: [state_transition] *)
  Definition patched_transition (chain : pow_chain tx) (b : pow_block tx) : outcome unit * pow_chain tx :=
    let h := pb_header b in
    match (_ <~ patched_header chain h ;; patched_ommers (pb_ommers b) h chain) with
    | Fail e => (Fail e, chain)
    | Done _ =>
        match apply_body fork execute chain b (pc_state chain) with
        | (Fail e, s) => (Fail e, PowChain (pc_blocks chain) s (pc_chain_id chain))
        | (Done output, s) =>
            match (block_state_root <~ of_option (FCrash AssertionError) (state_root cr s) ;;
                   _ <~ check (po_gas_used output =? ph_gas_used h) ;;
                   _ <~ check (bytes_eqb (po_transactions_root output) (ph_transactions_root h)) ;;
                   _ <~ check (bytes_eqb block_state_root (ph_state_root h)) ;;
                   _ <~ check (bytes_eqb (po_receipt_root output) (ph_receipt_root h)) ;;
                   check (bytes_eqb (po_bloom output) (ph_bloom h))) with
            | Fail e => (Fail e, PowChain (pc_blocks chain) s (pc_chain_id chain))
            | Done _ =>
                let blocks := pc_blocks chain ++ [b] in
                (Done tt, PowChain (if 255 <? lenN blocks then lastN 255 blocks else blocks) s
                            (pc_chain_id chain))
            end
        end
    end.
End patched.
