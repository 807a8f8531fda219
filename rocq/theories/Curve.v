(** * Curve: recovery of public keys on the curve secp256k1.

    Models src/ethereum/crypto/elliptic_curve.py:21-79.  The library coincurve
    is a parameter: [coincurve signature hash] is
    [PublicKey.from_signature_and_message(signature, hash, hasher=None)
    .format(compressed=False)]; [None] is ValueError. *)
From Verif Require Import Base State Vm Transactions Precompiles.

(** elliptic_curve.py:21-24; [SECP256K1N] (:25-27) is in [Precompiles] *)
Definition SECP256K1B : N := 7.
Definition SECP256K1P : N := 0xFFFFFFFFFFFFFFFFFFFFFFFFFFFFFFFFFFFFFFFFFFFFFFFFFFFFFFFEFFFFFC2F.

Section Recover.
  Context (coincurve : bytes -> bytes -> option bytes).

  (** elliptic_curve.py:48-52.  The sum is one of U256 numbers. *)
  Definition is_square (r : N) : outcome N :=
    sum <~ of_result (to_u256 (pow_mod r 3 SECP256K1P + SECP256K1B)) ;;
    Done (pow_mod sum ((SECP256K1P - 1) / 2) SECP256K1P).

  (** elliptic_curve.py:30-79.  [signature[64] = v] raises ValueError unless
      [v] is a byte; this is outside the [try]. *)
  Definition recover_key (r s v : N) (msg_hash : bytes) : outcome bytes :=
    square <~ is_square r ;;
    if negb (square =? 1) then invalid InvalidSignatureError
    else if negb (v <? 256) then Fail (FCrash ValueError)
    else match coincurve (to_be_bytes32 r ++ to_be_bytes32 s ++ [byte_of_N v]) msg_hash with
         | None => invalid InvalidSignatureError
         | Some public_key => Done (dropN 1 public_key)
         end.
End Recover.

(** The external code with this function in place of an arbitrary one.  The
    callers pass a [v] of 0 or 1. *)
Definition with_coincurve (cr : crypto) (coincurve : bytes -> bytes -> option bytes) : crypto := {|
  keccak256 := keccak256 cr;
  sha256_digest := sha256_digest cr;
  ripemd160_digest := ripemd160_digest cr;
  secp256k1_recover := fun r s v msg_hash =>
    match recover_key coincurve r s v msg_hash with Done key => Some key | Fail _ => None end;
  secp256r1_verify := secp256r1_verify cr;
  bn128_add := bn128_add cr;
  bn128_mul := bn128_mul cr;
  bn128_g2_mul := bn128_g2_mul cr;
  bn128_pairing_is_one := bn128_pairing_is_one cr;
  bls_g1_add := bls_g1_add cr;
  bls_g1_mul := bls_g1_mul cr;
  bls_g2_add := bls_g2_add cr;
  bls_g2_mul := bls_g2_mul cr;
  bls_g2_neg := bls_g2_neg cr;
  bls_map_to_g1 := bls_map_to_g1 cr;
  bls_map_to_g2 := bls_map_to_g2 cr;
  bls_pairing_is_one := bls_pairing_is_one cr;
  bls_g1_generator := bls_g1_generator cr;
  bls_g2_generator := bls_g2_generator cr;
  bls_pubkey_to_g1 := bls_pubkey_to_g1 cr;
  bls_signature_to_g2 := bls_signature_to_g2 cr;
  bls_key_validate := bls_key_validate cr;
|}.
