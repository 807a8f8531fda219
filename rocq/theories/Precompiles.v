(** * Precompiles: the precompiled contracts.

    Models src/ethereum/osaka/vm/precompiled_contracts/*.py,
    src/ethereum/crypto/blake2.py and src/ethereum/crypto/kzg.py.  Input
    parsing, validation of points, loops, gas and error behaviour are
    modelled; the group operations, pairings and hash functions other than
    BLAKE2 (all from libraries) are fields of [crypto]. *)
From Verif Require Import Base State Rlp Vm Instructions.

(** src/ethereum/crypto/elliptic_curve.py:24-26 *)
Definition SECP256K1N : N :=
  0xFFFFFFFFFFFFFFFFFFFFFFFFFFFFFFFEBAAEDCE6AF48A03BBFD25E8CD0364141.
(** src/ethereum/crypto/elliptic_curve.py:82-93 *)
Definition SECP256R1N : N :=
  0xFFFFFFFF00000000FFFFFFFFFFFFFFFFBCE6FAADA7179E84F3B9CAC2FC632551.
Definition SECP256R1P : N :=
  0xFFFFFFFF00000001000000000000000000000000FFFFFFFFFFFFFFFFFFFFFFFF.
Definition SECP256R1A : N :=
  0xFFFFFFFF00000001000000000000000000000000FFFFFFFFFFFFFFFFFFFFFFFC.
Definition SECP256R1B : N :=
  0x5AC635D8AA3A93E7B3EBBD55769886BC651D06B0CC53B0F63BCE3C3E27D2604B.

(** src/ethereum/crypto/elliptic_curve.py:142-177 *)
Definition is_on_curve_secp256r1 (x y : N) : bool :=
  let y_squared := (y * y) mod SECP256R1P in
  let x_cubed := (x * x * x) mod SECP256R1P in
  let ax := (SECP256R1A * x) mod SECP256R1P in
  y_squared =? (x_cubed + ax + SECP256R1B) mod SECP256R1P.

(** [U256.from_be_bytes(buffer_read(data, U256(start), U256(32)))] *)
Definition read_word (data : bytes) (start : N) : N :=
  from_be_bytes (buffer_read data start 32).

(** [evm.message.data] *)
Definition get_data : M bytes := e <- get_evm ;; ret (m_data (e_message e)).

(** ** modexp.py *)

(** src/ethereum/osaka/vm/precompiled_contracts/modexp.py:75-99 *)
Definition modexp_complexity (base_length modulus_length : N) : N :=
  let max_length := N.max base_length modulus_length in
  let words := (max_length + 7) / 8 in
  if 32 <? max_length then 2 * words ^ 2 else 16.

(** modexp.py:102-141 *)
Definition modexp_iterations (exponent_length exponent_head : N) : N :=
  let count :=
    if (exponent_length <=? 32) && (exponent_head =? 0) then 0
    else if exponent_length <=? 32 then
      let bits := bit_length exponent_head in
      if 0 <? bits then bits - 1 else bits
    else
      let length_part := 16 * (exponent_length - 32) in
      let bits := bit_length exponent_head in
      length_part + (if 0 <? bits then bits - 1 else bits) in
  N.max count 1.

(** modexp.py:144-178 *)
Definition modexp_gas_cost
    (base_length modulus_length exponent_length exponent_head : N) : N :=
  N.max 500 (modexp_complexity base_length modulus_length
             * modexp_iterations exponent_length exponent_head).

(** modexp.py:23-72; [x.to_bytes(n, "big")] cannot overflow because
    [x < modulus < 256^modulus_length] *)
Definition pre_modexp : M unit :=
  data <- get_data ;;
  let base_length := read_word data 0 in
  if 1024 <? base_length then raise (EHalt ExceptionalHaltMsg) else
  let exp_length := read_word data 32 in
  if 1024 <? exp_length then raise (EHalt ExceptionalHaltMsg) else
  let modulus_length := read_word data 64 in
  if 1024 <? modulus_length then raise (EHalt ExceptionalHaltMsg) else
  let exp_start := 96 + base_length in
  let exp_head :=
    from_be_bytes (buffer_read data exp_start (N.min 32 exp_length)) in
  charge_gas (modexp_gas_cost base_length modulus_length exp_length exp_head) ;;;
  if (base_length =? 0) && (modulus_length =? 0) then upd (set_output [])
  else
    let base := from_be_bytes (buffer_read data 96 base_length) in
    let exp := from_be_bytes (buffer_read data exp_start exp_length) in
    let modulus_start := exp_start + exp_length in
    let modulus :=
      from_be_bytes (buffer_read data modulus_start modulus_length) in
    if modulus =? 0 then upd (set_output (zeros modulus_length))
    else upd (set_output
                (to_be_fixed (N.to_nat modulus_length)
                   (pow_mod base exp modulus))).

(** The modular exponentiation of the forks from Paris to Prague
    (src/ethereum/prague/vm/precompiled_contracts/modexp.py:24-65, :68-89,
    :92-131, :134-169).  The sums of lengths are of type [U256] and may raise
    OverflowError. *)
Definition modexp_gas_cost_2565
    (base_length modulus_length exponent_length exponent_head : N) : N :=
  let words := (N.max base_length modulus_length + 7) / 8 in
  let bits := bit_length exponent_head - 1 in
  let count := if exponent_length <=? 32 then bits
               else 8 * (exponent_length - 32) + bits in
  N.max 200 (words ^ 2 * N.max count 1 / 3).
Definition pre_modexp_2565 : M unit :=
  data <- get_data ;;
  let base_length := read_word data 0 in
  let exp_length := read_word data 32 in
  let modulus_length := read_word data 64 in
  exp_start <- lift (to_u256 (96 + base_length)) ;;
  let exp_head :=
    from_be_bytes (buffer_read data exp_start (N.min 32 exp_length)) in
  charge_gas
    (modexp_gas_cost_2565 base_length modulus_length exp_length exp_head) ;;;
  if (base_length =? 0) && (modulus_length =? 0) then upd (set_output [])
  else
    let base := from_be_bytes (buffer_read data 96 base_length) in
    let exp := from_be_bytes (buffer_read data exp_start exp_length) in
    modulus_start <- lift (to_u256 (exp_start + exp_length)) ;;
    let modulus :=
      from_be_bytes (buffer_read data modulus_start modulus_length) in
    if modulus =? 0 then upd (set_output (zeros modulus_length))
    else upd (set_output
                (to_be_fixed (N.to_nat modulus_length)
                   (pow_mod base exp modulus))).

(** ** blake2f.py and src/ethereum/crypto/blake2.py *)

(** [Uint.from_le_bytes] *)
Definition from_le_bytes (b : bytes) : N := from_be_bytes (rev b).

(** src/ethereum/crypto/blake2.py:12-33 *)
Fixpoint spit_le_to_uint (data : bytes) (start : N) (num_words : nat) : list N :=
  match num_words with
  | O => []
  | S n => from_le_bytes (sliceN start (start + 8) data)
           :: spit_le_to_uint data (start + 8) n
  end.

(** blake2.py:92-103 *)
Definition blake2_sigma : list (list nat) :=
  ([[0; 1; 2; 3; 4; 5; 6; 7; 8; 9; 10; 11; 12; 13; 14; 15];
    [14; 10; 4; 8; 9; 15; 13; 6; 1; 12; 0; 2; 11; 7; 5; 3];
    [11; 8; 12; 0; 5; 2; 15; 13; 10; 14; 3; 6; 7; 1; 9; 4];
    [7; 9; 3; 1; 13; 12; 11; 14; 2; 6; 5; 10; 4; 0; 15; 8];
    [9; 0; 5; 7; 2; 4; 10; 15; 14; 1; 11; 12; 6; 8; 3; 13];
    [2; 12; 6; 10; 0; 11; 8; 3; 4; 13; 7; 5; 15; 14; 1; 9];
    [12; 5; 1; 15; 14; 13; 4; 10; 0; 7; 6; 3; 9; 2; 8; 11];
    [13; 11; 7; 14; 12; 1; 3; 9; 5; 0; 15; 4; 8; 6; 2; 10];
    [6; 15; 14; 9; 11; 3; 0; 8; 12; 2; 13; 7; 1; 4; 10; 5];
    [10; 2; 8; 4; 7; 6; 1; 5; 15; 11; 9; 14; 3; 12; 13; 0]])%nat.

(** blake2.py:105-114 *)
Definition blake2_IV : list N :=
  [0x6A09E667F3BCC908;
    0xBB67AE8584CAA73B;
    0x3C6EF372FE94F82B;
    0xA54FF53A5F1D36F1;
    0x510E527FADE682D1;
    0x9B05688C2B3E6C1F;
    0x1F83D9ABFB41BD6B;
    0x5BE0CD19137E2179].

(** blake2.py:116-125 *)
Definition blake2_MIX_TABLE : list (nat * nat * nat * nat) :=
  ([(0, 4, 8, 12); (1, 5, 9, 13); (2, 6, 10, 14); (3, 7, 11, 15);
    (0, 5, 10, 15); (1, 6, 11, 12); (2, 7, 8, 13); (3, 4, 9, 14)])%nat.

Definition nth0 (v : list N) (i : nat) : N := nth i v 0.

(** [((a ^ b) >> R) ^ ((a ^ b) << (w - R)) % 2^w] with [w = 64]; in Python
    [%] binds tighter than [^] *)
Definition blake2_rot (x R : N) : N :=
  N.lxor (N.shiftr x R) (N.shiftl x (64 - R) mod 2 ^ 64).

(** blake2.py:152-188 *)
Definition blake2_G (v : list N) (idx : nat * nat * nat * nat) (x y : N)
  : list N :=
  let '(a, b, c, d) := idx in
  let v := <[a := (nth0 v a + nth0 v b + x) mod 2 ^ 64]> v in
  let v := <[d := blake2_rot (N.lxor (nth0 v d) (nth0 v a)) 32]> v in
  let v := <[c := (nth0 v c + nth0 v d) mod 2 ^ 64]> v in
  let v := <[b := blake2_rot (N.lxor (nth0 v b) (nth0 v c)) 24]> v in
  let v := <[a := (nth0 v a + nth0 v b + y) mod 2 ^ 64]> v in
  let v := <[d := blake2_rot (N.lxor (nth0 v d) (nth0 v a)) 16]> v in
  let v := <[c := (nth0 v c + nth0 v d) mod 2 ^ 64]> v in
  <[b := blake2_rot (N.lxor (nth0 v b) (nth0 v c)) 63]> v.

(** The eight mixing steps of one round, blake2.py:231-244 *)
Fixpoint blake2_mix (v : list N) (m : list N) (s : list nat)
    (table : list (nat * nat * nat * nat)) : list N :=
  match table, s with
  | idx :: table', s0 :: s1 :: s' =>
      blake2_mix (blake2_G v idx (nth0 m s0) (nth0 m s1)) m s' table'
  | _, _ => v
  end.
Definition blake2_round (r : N) (m v : list N) : list N :=
  blake2_mix v m (nth (N.to_nat (r mod 10)) blake2_sigma []) blake2_MIX_TABLE.

(** [struct.pack("<8Q", ...)] *)
Definition to_le_bytes8 (x : N) : bytes := rev (to_be_fixed 8 x).

(** blake2.py:190-247.  [v[8:15] = IV] inserts eight words in place of seven,
    so the Python vector has a seventeenth word that is never used. *)
Definition blake2_compress (num_rounds : N) (h m : list N) (t_0 t_1 f : N)
  : bytes :=
  let v := h ++ blake2_IV ++ [0] in
  let v := <[12%nat := N.lxor t_0 (nth0 blake2_IV 4)]> v in
  let v := <[13%nat := N.lxor t_1 (nth0 blake2_IV 5)]> v in
  let v := if f =? 0 then v
           else <[14%nat := N.lxor (nth0 v 14) 0xFFFFFFFFFFFFFFFF]> v in
  let '(_, v) :=
    N.iter num_rounds (fun '(r, v) => (r + 1, blake2_round r m v)) (0, v) in
  concat (map (fun i => to_le_bytes8
                 (N.lxor (N.lxor (nth0 h i) (nth0 v i)) (nth0 v (i + 8))))
            (seq 0 8)).

(** src/ethereum/osaka/vm/precompiled_contracts/blake2f.py:21-41 *)
Definition pre_blake2f : M unit :=
  data <- get_data ;;
  if negb (lenN data =? 213) then raise (EHalt InvalidParameter) else
  let rounds := from_be_bytes (takeN 4 data) in
  let h := spit_le_to_uint data 4 8 in
  let m := spit_le_to_uint data 68 16 in
  let t := spit_le_to_uint data 196 2 in
  let f := from_be_bytes (dropN 212 data) in
  charge_gas (GAS_BLAKE2_PER_ROUND * rounds) ;;;
  if negb ((f =? 0) || (f =? 1)) then raise (EHalt InvalidParameter)
  else upd (set_output (blake2_compress rounds h m (nth0 t 0) (nth0 t 1) f)).

(** ** bls12_381 gas tables *)

(** src/ethereum/osaka/vm/precompiled_contracts/bls12_381/__init__.py:38-167 *)
Definition G1_K_DISCOUNT : list N :=
  [
    1000; 949; 848; 797; 764; 750; 738; 728; 719; 712; 705; 698; 692; 687;
    682; 677; 673; 669; 665; 661; 658; 654; 651; 648; 645; 642; 640; 637; 635;
    632; 630; 627; 625; 623; 621; 619; 617; 615; 613; 611; 609; 608; 606; 604;
    603; 601; 599; 598; 596; 595; 593; 592; 591; 589; 588; 586; 585; 584; 582;
    581; 580; 579; 577; 576; 575; 574; 573; 572; 570; 569; 568; 567; 566; 565;
    564; 563; 562; 561; 560; 559; 558; 557; 556; 555; 554; 553; 552; 551; 550;
    549; 548; 547; 547; 546; 545; 544; 543; 542; 541; 540; 540; 539; 538; 537;
    536; 536; 535; 534; 533; 532; 532; 531; 530; 529; 528; 528; 527; 526; 525;
    525; 524; 523; 522; 522; 521; 520; 520; 519].
(** bls12_381/__init__.py:169-298 *)
Definition G2_K_DISCOUNT : list N :=
  [
    1000; 1000; 923; 884; 855; 832; 812; 796; 782; 770; 759; 749; 740; 732;
    724; 717; 711; 704; 699; 693; 688; 683; 679; 674; 670; 666; 663; 659; 655;
    652; 649; 646; 643; 640; 637; 634; 632; 629; 627; 624; 622; 620; 618; 615;
    613; 611; 609; 607; 606; 604; 602; 600; 598; 597; 595; 593; 592; 590; 589;
    587; 586; 584; 583; 582; 580; 579; 578; 576; 575; 574; 573; 571; 570; 569;
    568; 567; 566; 565; 563; 562; 561; 560; 559; 558; 557; 556; 555; 554; 553;
    552; 552; 551; 550; 549; 548; 547; 546; 545; 545; 544; 543; 542; 541; 541;
    540; 539; 538; 537; 537; 536; 535; 535; 534; 533; 532; 532; 531; 530; 530;
    529; 528; 528; 527; 526; 526; 525; 524; 524].
(** bls12_381/__init__.py:300-302 *)
Definition G1_MAX_DISCOUNT : N := 519.
Definition G2_MAX_DISCOUNT : N := 524.
Definition MULTIPLIER : N := 1000.

(** bls12_381_g1.py:95-103, bls12_381_g2.py:96-104 *)
Definition msm_gas (k mul_gas : N) (table : list N) (max_discount : N) : N :=
  let discount :=
    if k <=? 128 then default 0 (nthN table (k - 1)) else max_discount in
  k * mul_gas * discount / MULTIPLIER.

(** alt_bn128 field modulus (py_ecc.optimized_bn128) and curve equation
    [y^2 = x^3 + 3] *)
Definition bn128_field_modulus : N :=
  21888242871839275222246405745257275088696311157297823662689037894645226208583.

(** src/ethereum/osaka/vm/precompiled_contracts/alt_bn128.py:39-81 on a
    64-byte slice; [None] is InvalidParameter *)
Definition bn128_bytes_to_g1 (d : bytes) : option (N * N) :=
  let x := read_word d 0 in
  let y := read_word d 32 in
  if bn128_field_modulus <=? x then None
  else if bn128_field_modulus <=? y then None
  else if (x =? 0) && (y =? 0) then Some (x, y)
  else if (y * y) mod bn128_field_modulus
          =? (x * x * x + 3) mod bn128_field_modulus
  then Some (x, y) else None.

(** py_ecc FQ2: [c0 + c1 * i] with [i * i = -1], over the prime [p] *)
Definition fq2_add (p : N) (x y : N * N) : N * N :=
  ((x.1 + y.1) mod p, (x.2 + y.2) mod p).
Definition fq2_mul (p : N) (x y : N * N) : N * N :=
  ((x.1 * y.1 + (p - x.2 mod p) * y.2) mod p, (x.1 * y.2 + x.2 * y.1) mod p).
Definition pair_eqb (x y : N * N) : bool := (x.1 =? y.1) && (x.2 =? y.2).
Definition is_inf1 (q : g1_point) : bool := pair_eqb q (0, 0).
Definition is_inf2 (q : g2_point) : bool :=
  pair_eqb q.1 (0, 0) && pair_eqb q.2 (0, 0).

(** py_ecc is_on_curve: [y^2 = x^3 + b], or the point is at infinity *)
Definition on_curve1 (p b : N) (q : g1_point) : bool :=
  is_inf1 q || ((q.2 * q.2) mod p =? (q.1 * q.1 * q.1 + b) mod p).
Definition on_curve2 (p : N) (b : N * N) (q : g2_point) : bool :=
  is_inf2 q
  || pair_eqb (fq2_mul p q.2 q.2)
       (fq2_add p (fq2_mul p (fq2_mul p q.1 q.1) q.1) b).

(** py_ecc.optimized_bn128 b2 = 3 / (9 + i), and curve_order *)
Definition bn128_b2 : N * N :=
  (19485874751759354771024239261021720505790618469301721065564631296452457478373,
   266929791119991161246907387137283842545076965332900288569378510910307636690).
Definition bn128_curve_order : N :=
  21888242871839275222246405745257275088548364400416034343698204186575808495617.

(** alt_bn128.py:84-134 on a 128-byte slice; [None] is InvalidParameter *)
Definition bn128_bytes_to_g2 (d : bytes) : option g2_point :=
  let x0 := read_word d 0 in
  let x1 := read_word d 32 in
  let y0 := read_word d 64 in
  let y1 := read_word d 96 in
  if (bn128_field_modulus <=? x0) || (bn128_field_modulus <=? x1) then None
  else if (bn128_field_modulus <=? y0) || (bn128_field_modulus <=? y1) then None
  else if on_curve2 bn128_field_modulus bn128_b2 ((x1, x0), (y1, y0))
  then Some ((x1, x0), (y1, y0)) else None.

(** py_ecc.optimized_bls12_381: field_modulus, b, b2; curve_order is
    [BLS_MODULUS] *)
Definition bls_field_modulus : N :=
  4002409555221667393417789825735904156556882819939007885332058136124031650490837864442687629129015664037894272559787.
Definition bls_b : N := 4.
Definition bls_b2 : N * N := (4, 4).

(** src/ethereum/osaka/vm/precompiled_contracts/point_evaluation.py:27-29,
    src/ethereum/crypto/kzg.py:61-63 *)
Definition FIELD_ELEMENTS_PER_BLOB : N := 4096.
Definition BLS_MODULUS : N :=
  52435875175126190479447740508185965837690552500527637822603658699938581184513.

(** bls12_381/__init__.py:425-452 *)
Definition bytes_to_fq (d : bytes) : option N :=
  if negb (lenN d =? 64) then None else
  let c := from_be_bytes (takeN 64 d) in
  if bls_field_modulus <=? c then None else Some c.

(** bls12_381/__init__.py:455-484 *)
Definition bytes_to_fq2 (d : bytes) : option (N * N) :=
  if negb (lenN d =? 128) then None else
  let c_0 := from_be_bytes (takeN 64 d) in
  let c_1 := from_be_bytes (dropN 64 d) in
  if bls_field_modulus <=? c_0 then None
  else if bls_field_modulus <=? c_1 then None
  else Some (c_0, c_1).

(** bls12_381/__init__.py:373-391: [int(x).to_bytes(64, "big")]; the
    coordinates are reduced, so it cannot overflow *)
Definition g1_to_bytes (q : g1_point) : bytes :=
  to_be_fixed 64 q.1 ++ to_be_fixed 64 q.2.

(** bls12_381/__init__.py:550-585 *)
Definition FQ2_to_bytes (c : N * N) : bytes :=
  to_be_fixed 64 c.1 ++ to_be_fixed 64 c.2.
Definition g2_to_bytes (q : g2_point) : bytes :=
  FQ2_to_bytes q.1 ++ FQ2_to_bytes q.2.

(** src/ethereum/crypto/kzg.py:60, 64 *)
Definition G1_POINT_AT_INFINITY : bytes := Byte.xc0 :: zeros 47.
Definition KZG_SETUP_G2_MONOMIAL_1 : bytes :=
  to_be_fixed 96 0xb5bfd7dd8cdeb128843bc287230af38926187075cbfbefa81009a2ce615ac53d2914e5870cb452d2afaaab24f3499f72185cbfee53492714734429b7b38608e23926c911cceceac9a36851477ba4c60b087041de621000edc98edada20c1def2.

Section Precompiles.
  Context (cr : crypto).

  (** ecrecover.py:26-63 *)
  Definition pre_ecrecover : M unit :=
    data <- get_data ;;
    charge_gas GAS_ECRECOVER ;;;
    let message_hash := buffer_read data 0 32 in
    let v := read_word data 32 in
    let r := read_word data 64 in
    let s := read_word data 96 in
    if negb (v =? 27) && negb (v =? 28) then ret tt
    else if (r <=? 0) || (SECP256K1N <=? r) then ret tt
    else if (s <=? 0) || (SECP256K1N <=? s) then ret tt
    else match secp256k1_recover cr r s (v - 27) message_hash with
         | None => ret tt
         | Some public_key =>
             let a := sliceN 12 32 (keccak256 cr public_key) in
             upd (set_output (left_pad_zero_bytes a 32))
         end.

  (** sha256.py:24-40 *)
  Definition pre_sha256 : M unit :=
    data <- get_data ;;
    let word_count := words_of (lenN data) in
    charge_gas (GAS_SHA256 + GAS_SHA256_WORD * word_count) ;;;
    upd (set_output (sha256_digest cr data)).

  (** ripemd160.py:25-43 *)
  Definition pre_ripemd160 : M unit :=
    data <- get_data ;;
    let word_count := words_of (lenN data) in
    charge_gas (GAS_RIPEMD160 + GAS_RIPEMD160_WORD * word_count) ;;;
    upd (set_output (left_pad_zero_bytes (ripemd160_digest cr data) 32)).

  (** identity.py:22-38 *)
  Definition pre_identity : M unit :=
    data <- get_data ;;
    let word_count := words_of (lenN data) in
    charge_gas (GAS_IDENTITY + GAS_IDENTITY_WORD * word_count) ;;;
    upd (set_output data).

  (** alt_bn128.py:137-161 *)
  Definition pre_alt_bn128_add : M unit :=
    data <- get_data ;;
    charge_gas 150 ;;;
    match bn128_bytes_to_g1 (buffer_read data 0 64),
          bn128_bytes_to_g1 (buffer_read data 64 64) with
    | Some p0, Some p1 =>
        let '(x, y) := bn128_add cr p0 p1 in
        upd (set_output (to_be_bytes32 x ++ to_be_bytes32 y))
    | _, _ => raise (EHalt OutOfGasError)
    end.

  (** alt_bn128.py:164-188 *)
  Definition pre_alt_bn128_mul : M unit :=
    data <- get_data ;;
    charge_gas 6000 ;;;
    match bn128_bytes_to_g1 (buffer_read data 0 64) with
    | Some p0 =>
        let n := read_word data 64 in
        let '(x, y) := bn128_mul cr p0 n in
        upd (set_output (to_be_bytes32 x ++ to_be_bytes32 y))
    | None => raise (EHalt OutOfGasError)
    end.

  (** The loop of alt_bn128_pairing_check, alt_bn128.py:208-220: the decoded
      pairs; [None] is OutOfGasError *)
  Fixpoint bn128_pairs (data : bytes) (i : N) (k : nat)
    : option (list (g1_point * g2_point)) :=
    match k with
    | O => Some []
    | S k =>
        match bn128_bytes_to_g1 (buffer_read data (192 * i) 64),
              bn128_bytes_to_g2 (buffer_read data (192 * i + 64) 128) with
        | Some p, Some q =>
            if negb (is_inf1 (bn128_mul cr p bn128_curve_order)) then None
            else if negb (is_inf2 (bn128_g2_mul cr q bn128_curve_order)) then None
            else match bn128_pairs data (i + 1) k with
                 | Some l => Some ((p, q) :: l)
                 | None => None
                 end
        | _, _ => None
        end
    end.
  Definition bn128_pairing (data : bytes) : option bool :=
    match bn128_pairs data 0 (N.to_nat (lenN data / 192)) with
    | Some l => Some (bn128_pairing_is_one cr l)
    | None => None
    end.

  (** alt_bn128.py:191-225 *)
  Definition pre_alt_bn128_pairing_check : M unit :=
    data <- get_data ;;
    charge_gas (34000 * (lenN data / 192) + 45000) ;;;
    if negb (lenN data mod 192 =? 0) then raise (EHalt OutOfGasError)
    else match bn128_pairing data with
         | None => raise (EHalt OutOfGasError)
         | Some b => upd (set_output (to_be_bytes32 (b2n b)))
         end.

  (** src/ethereum/crypto/kzg.py:79-87 (and :90-95, :109-114);
      [false] is AssertionError *)
  Definition validate_kzg_g1 (b : bytes) : bool :=
    if bytes_eqb b G1_POINT_AT_INFINITY then true else bls_key_validate cr b.

  (** kzg.py:98-106; [None] is AssertionError *)
  Definition bytes_to_bls_field (b : bytes) : option N :=
    let field_element := from_be_bytes b in
    if field_element <? BLS_MODULUS then Some field_element else None.

  (** kzg.py:154-178; an exception is [false].  pairing_check (117-126) does
      one final exponentiation of a product of Miller loops, which is one
      exactly when the product of the pairings is. *)
  Definition verify_kzg_proof_impl (commitment : bytes) (z y : N) (proof : bytes)
    : bool :=
    match bls_signature_to_g2 cr KZG_SETUP_G2_MONOMIAL_1,
          bls_pubkey_to_g1 cr commitment, bls_pubkey_to_g1 cr proof with
    | Some x, Some p, Some q =>
        let X_minus_z :=
          bls_g2_add cr x
            (bls_g2_mul cr (bls_g2_generator cr) ((BLS_MODULUS - z) mod BLS_MODULUS)) in
        let P_minus_y :=
          bls_g1_add cr p
            (bls_g1_mul cr (bls_g1_generator cr) ((BLS_MODULUS - y) mod BLS_MODULUS)) in
        bls_pairing_is_one cr
          [(P_minus_y, bls_g2_neg cr (bls_g2_generator cr)); (q, X_minus_z)]
    | _, _, _ => false
    end.

  (** kzg.py:129-151; the length assertions hold for the slices that
      point_evaluation passes *)
  Definition verify_kzg_proof (commitment_bytes z_bytes y_bytes proof_bytes : bytes)
    : bool :=
    if negb (validate_kzg_g1 commitment_bytes) then false else
    match bytes_to_bls_field z_bytes, bytes_to_bls_field y_bytes with
    | Some z, Some y =>
        if negb (validate_kzg_g1 proof_bytes) then false
        else verify_kzg_proof_impl commitment_bytes z y proof_bytes
    | _, _ => false
    end.

  (** point_evaluation.py:32-72 and
      src/ethereum/crypto/kzg.py kzg_commitment_to_versioned_hash *)
  Definition pre_point_evaluation : M unit :=
    data <- get_data ;;
    if negb (lenN data =? 192) then raise (EHalt KZGProofError) else
    let versioned_hash := takeN 32 data in
    let z := sliceN 32 64 data in
    let y := sliceN 64 96 data in
    let commitment := sliceN 96 144 data in
    let proof := sliceN 144 192 data in
    charge_gas GAS_POINT_EVALUATION ;;;
    if negb (bytes_eqb
               (Byte.x01 :: dropN 1 (sha256_digest cr commitment)) versioned_hash)
    then raise (EHalt KZGProofError)
    else if negb (verify_kzg_proof commitment z y proof)
    then raise (EHalt KZGProofError)
    else upd (set_output (to_be_bytes32 FIELD_ELEMENTS_PER_BLOB
                          ++ to_be_bytes32 BLS_MODULUS)).

  (** p256verify.py:28-84 *)
  Definition pre_p256verify : M unit :=
    data <- get_data ;;
    charge_gas GAS_P256VERIFY ;;;
    if negb (lenN data =? 160) then ret tt else
    let message_hash := buffer_read data 0 32 in
    let r := read_word data 32 in
    let s := read_word data 64 in
    let x := read_word data 96 in
    let y := read_word data 128 in
    if (r <=? 0) || (SECP256R1N <=? r) then ret tt
    else if (s <=? 0) || (SECP256R1N <=? s) then ret tt
    else if SECP256R1P <=? x then ret tt
    else if SECP256R1P <=? y then ret tt
    else if negb (is_on_curve_secp256r1 x y) then ret tt
    else if (x =? 0) && (y =? 0) then ret tt
    else if secp256r1_verify cr r s x y message_hash
    then upd (set_output (left_pad_zero_bytes [Byte.x01] 32))
    else ret tt.

  (** bls12_381/__init__.py:309-370 (the cache only avoids recomputation);
      [None] is InvalidParameter *)
  Definition bytes_to_g1 (data : bytes) (subgroup_check : bool)
    : option g1_point :=
    if negb (lenN data =? 128) then None else
    match bytes_to_fq (takeN 64 data), bytes_to_fq (dropN 64 data) with
    | Some x, Some y =>
        if negb (on_curve1 bls_field_modulus bls_b (x, y)) then None
        else if subgroup_check
                && negb (is_inf1 (bls_g1_mul cr (x, y) BLS_MODULUS)) then None
        else Some (x, y)
    | _, _ => None
    end.

  (** bls12_381/__init__.py:491-547 *)
  Definition bytes_to_g2 (data : bytes) (subgroup_check : bool)
    : option g2_point :=
    if negb (lenN data =? 256) then None else
    match bytes_to_fq2 (takeN 128 data), bytes_to_fq2 (dropN 128 data) with
    | Some x, Some y =>
        if negb (on_curve2 bls_field_modulus bls_b2 (x, y)) then None
        else if subgroup_check
                && negb (is_inf2 (bls_g2_mul cr (x, y) BLS_MODULUS)) then None
        else Some (x, y)
    | _, _ => None
    end.

  (** bls12_381/__init__.py:394-422.  For a wrong length the code builds an
      InvalidParameter without raising it; the callers pass 160 bytes. *)
  Definition decode_g1_scalar_pair (data : bytes) : option (g1_point * N) :=
    match bytes_to_g1 (takeN 128 data) true with
    | Some point => Some (point, from_be_bytes (buffer_read data 128 32))
    | None => None
    end.

  (** bls12_381/__init__.py:588-615 *)
  Definition decode_g2_scalar_pair (data : bytes) : option (g2_point * N) :=
    match bytes_to_g2 (takeN 256 data) true with
    | Some point => Some (point, from_be_bytes (sliceN 256 (256 + 32) data))
    | None => None
    end.

  (** bls12_381_g1.py:66-71 *)
  Definition bls12_g1_add_op (data : bytes) : option bytes :=
    match bytes_to_g1 (buffer_read data 0 128) false,
          bytes_to_g1 (buffer_read data 128 128) false with
    | Some p1, Some p2 => Some (g1_to_bytes (bls_g1_add cr p1 p2))
    | _, _ => None
    end.

  (** The loop of bls12_g1_msm, bls12_381_g1.py:106-117.  [None] inside is
      the unset [result]. *)
  Fixpoint bls12_g1_msm_loop (data : bytes) (i : N) (k : nat)
      (result : option g1_point) : option (option g1_point) :=
    match k with
    | O => Some result
    | S k =>
        match decode_g1_scalar_pair (sliceN (i * 160) (i * 160 + 160) data) with
        | None => None
        | Some (p, m) =>
            let product := bls_g1_mul cr p m in
            bls12_g1_msm_loop data (i + 1) k
              (Some match result with
                    | None => product
                    | Some result => bls_g1_add cr result product
                    end)
        end
    end.
  Definition bls12_g1_msm_op (data : bytes) : option bytes :=
    match bls12_g1_msm_loop data 0 (N.to_nat (lenN data / 160)) None with
    | Some (Some result) => Some (g1_to_bytes result)
    | _ => None
    end.

  (** bls12_381_g1.py:144-149 *)
  Definition bls12_map_fp_to_g1_op (data : bytes) : option bytes :=
    let fp := from_be_bytes data in
    if bls_field_modulus <=? fp then None
    else Some (g1_to_bytes (bls_map_to_g1 cr fp)).

  (** bls12_381_g2.py:67-72 *)
  Definition bls12_g2_add_op (data : bytes) : option bytes :=
    match bytes_to_g2 (buffer_read data 0 256) false,
          bytes_to_g2 (buffer_read data 256 256) false with
    | Some p1, Some p2 => Some (g2_to_bytes (bls_g2_add cr p1 p2))
    | _, _ => None
    end.

  (** The loop of bls12_g2_msm, bls12_381_g2.py:107-118 *)
  Fixpoint bls12_g2_msm_loop (data : bytes) (i : N) (k : nat)
      (result : option g2_point) : option (option g2_point) :=
    match k with
    | O => Some result
    | S k =>
        match decode_g2_scalar_pair (sliceN (i * 288) (i * 288 + 288) data) with
        | None => None
        | Some (p, m) =>
            let product := bls_g2_mul cr p m in
            bls12_g2_msm_loop data (i + 1) k
              (Some match result with
                    | None => product
                    | Some result => bls_g2_add cr result product
                    end)
        end
    end.
  Definition bls12_g2_msm_op (data : bytes) : option bytes :=
    match bls12_g2_msm_loop data 0 (N.to_nat (lenN data / 288)) None with
    | Some (Some result) => Some (g2_to_bytes result)
    | _ => None
    end.

  (** bls12_381_g2.py:144-151 *)
  Definition bls12_map_fp2_to_g2_op (data : bytes) : option bytes :=
    match bytes_to_fq2 data with
    | Some fp2 => Some (g2_to_bytes (bls_map_to_g2 cr fp2))
    | None => None
    end.

  (** The loop of bls12_pairing, bls12_381_pairing.py:50-65: the decoded
      pairs; [None] is InvalidParameter *)
  Fixpoint bls12_pairs (data : bytes) (i : N) (k : nat)
    : option (list (g1_point * g2_point)) :=
    match k with
    | O => Some []
    | S k =>
        match bytes_to_g1 (sliceN (384 * i) (384 * i + 128) data) false with
        | None => None
        | Some p =>
            if negb (is_inf1 (bls_g1_mul cr p BLS_MODULUS)) then None else
            match bytes_to_g2 (sliceN (384 * i + 128) (384 * i + 128 + 256) data)
                    false with
            | None => None
            | Some q =>
                if negb (is_inf2 (bls_g2_mul cr q BLS_MODULUS)) then None else
                match bls12_pairs data (i + 1) k with
                | Some l => Some ((p, q) :: l)
                | None => None
                end
            end
        end
    end.
  Definition bls12_pairing_op (data : bytes) : option bool :=
    match bls12_pairs data 0 (N.to_nat (lenN data / 384)) with
    | Some l => Some (bls_pairing_is_one cr l)
    | None => None
    end.

  (** The operation part of a BLS12-381 precompile. *)
  Definition bls_output (r : option bytes) : M unit :=
    match r with
    | None => raise (EHalt InvalidParameter)
    | Some out => upd (set_output out)
    end.

  (** bls12_381_g1.py:44-71 *)
  Definition pre_bls12_g1_add : M unit :=
    data <- get_data ;;
    if negb (lenN data =? 256) then raise (EHalt InvalidParameter) else
    charge_gas GAS_BLS_G1_ADD ;;;
    bls_output (bls12_g1_add_op data).

  (** bls12_381_g1.py:74-119 *)
  Definition pre_bls12_g1_msm : M unit :=
    data <- get_data ;;
    if (lenN data =? 0) || negb (lenN data mod 160 =? 0)
    then raise (EHalt InvalidParameter) else
    charge_gas (msm_gas (lenN data / 160) GAS_BLS_G1_MUL G1_K_DISCOUNT
                  G1_MAX_DISCOUNT) ;;;
    bls_output (bls12_g1_msm_op data).

  (** bls12_381_g1.py:122-149 *)
  Definition pre_bls12_map_fp_to_g1 : M unit :=
    data <- get_data ;;
    if negb (lenN data =? 64) then raise (EHalt InvalidParameter) else
    charge_gas GAS_BLS_G1_MAP ;;;
    bls_output (bls12_map_fp_to_g1_op data).

  (** bls12_381_g2.py:45-72 *)
  Definition pre_bls12_g2_add : M unit :=
    data <- get_data ;;
    if negb (lenN data =? 512) then raise (EHalt InvalidParameter) else
    charge_gas GAS_BLS_G2_ADD ;;;
    bls_output (bls12_g2_add_op data).

  (** bls12_381_g2.py:75-120 *)
  Definition pre_bls12_g2_msm : M unit :=
    data <- get_data ;;
    if (lenN data =? 0) || negb (lenN data mod 288 =? 0)
    then raise (EHalt InvalidParameter) else
    charge_gas (msm_gas (lenN data / 288) GAS_BLS_G2_MUL G2_K_DISCOUNT
                  G2_MAX_DISCOUNT) ;;;
    bls_output (bls12_g2_msm_op data).

  (** bls12_381_g2.py:123-151 *)
  Definition pre_bls12_map_fp2_to_g2 : M unit :=
    data <- get_data ;;
    if negb (lenN data =? 128) then raise (EHalt InvalidParameter) else
    charge_gas GAS_BLS_G2_MAP ;;;
    bls_output (bls12_map_fp2_to_g2_op data).

  (** bls12_381_pairing.py:26-70 *)
  Definition pre_bls12_pairing : M unit :=
    data <- get_data ;;
    if (lenN data =? 0) || negb (lenN data mod 384 =? 0)
    then raise (EHalt InvalidParameter) else
    charge_gas (32600 * (lenN data / 384) + 37700) ;;;
    match bls12_pairing_op data with
    | None => raise (EHalt InvalidParameter)
    | Some b => upd (set_output (to_be_bytes32 (b2n b)))
    end.

  (** precompiled_contracts/__init__.py:39-56 and mapping.py:57-76; prague
      mapping.py:54-74, cancun :37-49, paris :34-44 *)
  Definition pre_compiled_contracts (f : pos_fork) (a : address)
    : option (M unit) :=
    let from first (m : M unit) := if at_least first f then Some m else None in
    match a with
    | 0x01 => Some pre_ecrecover
    | 0x02 => Some pre_sha256
    | 0x03 => Some pre_ripemd160
    | 0x04 => Some pre_identity
    | 0x05 => Some (if at_least Osaka f then pre_modexp else pre_modexp_2565)
    | 0x06 => Some pre_alt_bn128_add
    | 0x07 => Some pre_alt_bn128_mul
    | 0x08 => Some pre_alt_bn128_pairing_check
    | 0x09 => Some pre_blake2f
    | 0x0A => from Cancun pre_point_evaluation
    | 0x0B => from Prague pre_bls12_g1_add
    | 0x0C => from Prague pre_bls12_g1_msm
    | 0x0D => from Prague pre_bls12_g2_add
    | 0x0E => from Prague pre_bls12_g2_msm
    | 0x0F => from Prague pre_bls12_pairing
    | 0x10 => from Prague pre_bls12_map_fp_to_g1
    | 0x11 => from Prague pre_bls12_map_fp2_to_g2
    | 0x100 => from Osaka pre_p256verify
    | _ => None
    end.
End Precompiles.

(** The keys of PRE_COMPILED_CONTRACTS (used for warm addresses); mapping.py as
    above. *)
Definition precompile_addresses (f : pos_fork) : list address :=
  [0x01; 0x02; 0x03; 0x04; 0x05; 0x06; 0x07; 0x08; 0x09]
  ++ (if at_least Cancun f then [0x0A] else [])
  ++ (if at_least Prague f then [0x0B; 0x0C; 0x0D; 0x0E; 0x0F; 0x10; 0x11] else [])
  ++ (if at_least Osaka f then [0x100] else []).
