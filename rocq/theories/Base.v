(** * Base: bytes, unsigned integers and the numeric helpers used everywhere.

    Models:
    - [ethereum_types] (an external package; behaviour stated here): Bytes,
      [Uint]/[U256]/[U64] with their range checks, [from_be_bytes],
      [to_be_bytes32], [to_signed], [from_signed], [wrapping_*];
    - src/ethereum/utils/numeric.py;
    - src/ethereum/utils/byte.py.

    Unsigned numbers are [N]; a Python expression [U256(x)] that may raise
    OverflowError is modelled explicitly where it occurs.  *)
From Coq Require Export Strings.Byte.
From Coq Require Export ZArith NArith List Lia Bool.
From stdpp Require Export base gmap list.
Export ListNotations.
Global Open Scope N_scope.

Notation bytes := (list byte).

(** Length of a list as an unbounded unsigned integer ([ulen] of
    ethereum_types.numeric, [len]). *)
Definition lenN {A} (l : list A) : N := N.of_nat (length l).

(** [l[:n]] for a Python sequence and [n >= 0]. *)
Fixpoint takeN {A} (n : N) (l : list A) : list A :=
  match l with
  | [] => []
  | x :: r => if n =? 0 then [] else x :: takeN (N.pred n) r
  end.

(** [l[n:]] for a Python sequence and [n >= 0]. *)
Fixpoint dropN {A} (n : N) (l : list A) : list A :=
  match l with
  | [] => []
  | x :: r => if n =? 0 then l else dropN (N.pred n) r
  end.

(** [l[a:b]] for a Python sequence and [0 <= a], [0 <= b]. *)
Definition sliceN {A} (a b : N) (l : list A) : list A :=
  takeN (b - a) (dropN a l).

(** [l[n]] for [n >= 0]; [None] is IndexError. *)
Definition nthN {A} (l : list A) (n : N) : option A := head (dropN n l).

(** [b"\x00" * n]. *)
Definition zeros (n : N) : bytes := repeat Byte.x00 (N.to_nat n).

(** A byte from a number (reduced mod 256). *)
Definition byte_of_N (x : N) : byte :=
  match Byte.of_N (x mod 256) with Some b => b | None => Byte.x00 end.

(** Big-endian bytes to number: [Uint.from_be_bytes]. *)
Definition from_be_bytes (l : bytes) : N :=
  fold_left (fun acc b => acc * 256 + Byte.to_N b) l 0.

(** Number to exactly [n] big-endian bytes: [x.to_bytes(n, "big")] for
    [x < 256^n] (callers are responsible for the range). *)
Fixpoint to_be_fixed (n : nat) (x : N) : bytes :=
  match n with
  | O => []
  | S n' => to_be_fixed n' (x / 256) ++ [byte_of_N (x mod 256)]
  end.

(** [x.bit_length()]. *)
Definition bit_length (x : N) : N := N.size x.

(** Number to minimal big-endian bytes: [Uint.to_be_bytes] (0 gives b""). *)
Definition to_be_bytes (x : N) : bytes :=
  to_be_fixed (N.to_nat ((bit_length x + 7) / 8)) x.

Definition to_be_bytes32 (x : N) : bytes := to_be_fixed 32 x.
Definition to_be_bytes20 (x : N) : bytes := to_be_fixed 20 x.

(** Byte string equality (Python [==] on bytes). *)
Global Instance byte_eq_dec : EqDecision byte := Byte.byte_eq_dec.
Definition bytes_eqb (a b : bytes) : bool := bool_decide (a = b).

(** ** 256-bit arithmetic (ethereum_types.numeric.U256) *)
Definition U8_CEIL : N := 2 ^ 8.
Definition U64_CEIL : N := 2 ^ 64.
Definition U64_MAX : N := 2 ^ 64 - 1.
Definition U256_CEIL : N := 2 ^ 256.
Definition U256_MAX : N := 2 ^ 256 - 1.

Definition wrapping_add (x y : N) : N := (x + y) mod U256_CEIL.
Definition wrapping_sub (x y : N) : N := (x + U256_CEIL - y) mod U256_CEIL.
Definition wrapping_mul (x y : N) : N := (x * y) mod U256_CEIL.

(** [U256.to_signed]. *)
Definition to_signed (x : N) : Z :=
  if x <? 2 ^ 255 then Z.of_N x else (Z.of_N x - 2 ^ 256)%Z.

(** [U256.from_signed]: a negative value is masked to 256 bits; [None] is
    the OverflowError raised on a positive value above [U256_MAX]. *)
Definition from_signed (z : Z) : option N :=
  if (z <? 0)%Z then Some (Z.to_N (z mod 2 ^ 256))
  else if (z <? 2 ^ 256)%Z then Some (Z.to_N z) else None.

(** src/ethereum/utils/numeric.py:19-39 *)
Definition get_sign (v : Z) : Z :=
  if (v <? 0)%Z then (-1)%Z else if (v =? 0)%Z then 0%Z else 1%Z.

(** src/ethereum/utils/numeric.py:42-63 *)
Definition ceil32 (value : N) : N :=
  let remainder := value mod 32 in
  if remainder =? 0 then value else value + 32 - remainder.

(** src/ethereum/utils/byte.py:18-36 *)
Definition left_pad_zero_bytes (value : bytes) (size : N) : bytes :=
  zeros (size - lenN value) ++ value.

(** src/ethereum/utils/byte.py:39-57 *)
Definition right_pad_zero_bytes (value : bytes) (size : N) : bytes :=
  value ++ zeros (size - lenN value).

(** ** Exceptions *)

(** src/ethereum/osaka/vm/exceptions.py: subclasses of ExceptionalHalt. *)
Inductive halt :=
| StackUnderflowError | StackOverflowError | OutOfGasError
| InvalidOpcode (b : byte) | InvalidJumpDestError | StackDepthLimitError
| WriteInStaticContext | OutOfBoundsRead | InvalidParameter
| InvalidContractPrefix | AddressCollision | KZGProofError
| ExceptionalHaltMsg (* bare ExceptionalHalt raised by modexp *).

(** Python-level errors that no handler of the interpreter catches. *)
Inductive crash :=
| AssertionError | OverflowError | IndexError | ValueError | KeyError
| ZeroDivisionError | AttributeError.

(** Exceptions that can leave an EVM operation. [EOutOfFuel] is an artefact of
    the model, shown unreachable. [EInvalidBlock] is InvalidBlock
    (src/ethereum/exceptions.py), raised by [set_delegation]. *)
Inductive exn :=
| EHalt (h : halt) | ERevert | ECrash (c : crash) | EInvalidBlock | EOutOfFuel.

(** Pure computations that may raise a Python-level error. *)
Inductive result (A : Type) :=
| Ok (a : A) | Raise (c : crash).
Arguments Ok {A}. Arguments Raise {A}.

(** Range-checked constructor [U256(x)]. *)
Definition to_u256 (x : N) : result N :=
  if x <? U256_CEIL then Ok x else Raise OverflowError.

(** ** Loops

    A Python [while] loop is modelled by a step function returning [inl] (go
    on) or [inr] (finished), iterated at most [p] times; iteration is by
    binary recursion on [p] so that large bounds can be run.  [inl] as the
    overall result means that the bound was too small. *)
Fixpoint loop_pos {S R : Type} (p : positive) (step : S -> S + R) (s : S)
  : S + R :=
  match p with
  | xH => step s
  | xO q =>
      match loop_pos q step s with
      | inl s' => loop_pos q step s'
      | inr r => inr r
      end
  | xI q =>
      match step s with
      | inl s' =>
          match loop_pos q step s' with
          | inl s'' => loop_pos q step s''
          | inr r => inr r
          end
      | inr r => inr r
      end
  end.

(** [pow(b, e, m)] for [m > 0], by square and multiply;
    [NumericProofs.v] shows it equals [(b ^ e) mod m]. *)
Fixpoint pow_mod_pos (b m : N) (p : positive) : N :=
  match p with
  | xH => b mod m
  | xO q => let h := pow_mod_pos b m q in (h * h) mod m
  | xI q => let h := pow_mod_pos b m q in ((h * h) mod m * b) mod m
  end.
Definition pow_mod (b e m : N) : N :=
  match e with N0 => 1 mod m | Npos p => pow_mod_pos b m p end.
