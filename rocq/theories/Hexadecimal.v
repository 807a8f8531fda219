(** * Hexadecimal: numbers and byte strings written as text.

    Models src/ethereum/utils/hexadecimal.py and
    src/ethereum/osaka/utils/hexadecimal.py.

    - A [str] is the list of its code points, each below 256 (a byte). Python
      reads more code points as digits or spaces; such strings are not
      modelled.
    - [int(s, base)], [bytes.fromhex], [str.rjust] and [str.startswith] are
      those of CPython. The limit on the number of decimal digits of newer
      versions (4300) is not modelled. *)
From Verif Require Import Base State.

Notation str := bytes (only parsing).

Definition rbind {A B} (m : result A) (f : A -> result B) : result B :=
  match m with Ok a => f a | Raise c => Raise c end.
Notation "x <-- m ;; k" := (rbind m (fun x => k)) (at level 80, m at next level, right associativity).
Notation "' p <-- m ;; k" := (rbind m (fun x => let 'p := x in k))
  (at level 80, p pattern, m at next level, right associativity).

(** ** Python's own functions *)

(** The value of a digit; letters of both cases are digits from ten on *)
Definition char_value (c : byte) : option N :=
  let n := Byte.to_N c in
  if (48 <=? n) && (n <=? 57) then Some (n - 48)
  else if (97 <=? n) && (n <=? 122) then Some (n - 87)
  else if (65 <=? n) && (n <=? 90) then Some (n - 55)
  else None.
Definition digit_value (base : N) (c : byte) : option N :=
  match char_value c with
  | Some d => if d <? base then Some d else None
  | None => None
  end.

(** Spaces at the ends of a number: [str.isspace] below 256 *)
Definition is_space (c : byte) : bool :=
  let n := Byte.to_N c in
  ((9 <=? n) && (n <=? 13)) || ((28 <=? n) && (n <=? 32)) || (n =? 133) || (n =? 160).
Fixpoint skip_spaces (s : str) : str :=
  match s with
  | c :: r => if is_space c then skip_spaces r else s
  | [] => []
  end.

(** Digits with single underscores between them: the value and what follows.
    [acc] is the value so far, [None] before the first digit; [under] says that
    an underscore came last. *)
Fixpoint scan_digits (base : N) (acc : option N) (under : bool) (s : str) : result (N * str) :=
  let finish :=
    match acc with
    | Some v => if under then Raise ValueError else Ok (v, s)
    | None => Raise ValueError
    end in
  match s with
  | [] => finish
  | c :: r =>
      match digit_value base c with
      | Some d => scan_digits base (Some (default 0 acc * base + d)) false r
      | None =>
          if Byte.eqb c "_" then
            match acc with
            | Some _ => if under then Raise ValueError else scan_digits base acc true r
            | None => Raise ValueError
            end
          else finish
      end
  end.

(** A sign *)
Definition scan_sign (s : str) : bool * str :=
  match s with
  | c :: r => if Byte.eqb c "-" then (true, r) else if Byte.eqb c "+" then (false, r) else (false, s)
  | [] => (false, [])
  end.
(** In base 16 a prefix [0x], and an underscore after it *)
Definition scan_prefix (base : N) (s : str) : str :=
  match s with
  | c :: x :: r =>
      if (base =? 16) && Byte.eqb c "0" && (Byte.eqb x "x" || Byte.eqb x "X") then
        match r with
        | u :: r' => if Byte.eqb u "_" then r' else r
        | [] => []
        end
      else s
  | _ => s
  end.

(** [int(s, base)] for base 10 and 16 *)
Definition py_int (base : N) (s : str) : result Z :=
  let '(negative, s) := scan_sign (skip_spaces s) in
  '(v, rest) <-- scan_digits base None false (scan_prefix base s) ;;
  match skip_spaces rest with
  | [] => Ok (if negative then - Z.of_N v else Z.of_N v)%Z
  | _ => Raise ValueError
  end.

(** [bytes.fromhex(s)]: spaces (of ASCII) between bytes are skipped *)
Definition is_ascii_space (c : byte) : bool :=
  let n := Byte.to_N c in ((9 <=? n) && (n <=? 13)) || (n =? 32).
Fixpoint fromhex (s : str) : result bytes :=
  match s with
  | [] => Ok []
  | c :: r =>
      if is_ascii_space c then fromhex r
      else match digit_value 16 c, r with
           | Some h, d :: r' =>
               match digit_value 16 d with
               | Some l => b <-- fromhex r' ;; Ok (byte_of_N (16 * h + l) :: b)
               | None => Raise ValueError
               end
           | _, _ => Raise ValueError
           end
  end.

(** [s.rjust(n, "0")] *)
Definition rjust (n : N) (s : str) : str := repeat Byte.x30 (N.to_nat (n - lenN s)) ++ s.

(** [Uint(z)], [U8(z)], [U64(z)], [U256(z)], [Bytes32(b)] and so on
    (ethereum_types) *)
Definition to_uint (z : Z) : result N := if (z <? 0)%Z then Raise OverflowError else Ok (Z.to_N z).
Definition to_bounded (ceil : N) (z : Z) : result N :=
  n <-- to_uint z ;; if n <? ceil then Ok n else Raise OverflowError.
Definition to_fixed_bytes (n : N) (b : bytes) : result bytes :=
  if lenN b =? n then Ok b else Raise ValueError.

(** ** src/ethereum/utils/hexadecimal.py *)

(** Lines 20-34 *)
Definition has_hex_prefix (s : str) : bool :=
  match s with
  | c :: x :: _ => Byte.eqb c "0" && Byte.eqb x "x"
  | _ => false
  end.
(** Lines 37-55 *)
Definition remove_hex_prefix (s : str) : str := if has_hex_prefix s then dropN 2 s else s.
(** Lines 58-72 *)
Definition hex_to_bytes (s : str) : result bytes := fromhex (remove_hex_prefix s).
(** Lines 75-89 *)
Definition hex_to_bytes8 (s : str) : result bytes :=
  b <-- fromhex (rjust 16 (remove_hex_prefix s)) ;; to_fixed_bytes 8 b.
(** Lines 92-106 *)
Definition hex_to_bytes32 (s : str) : result bytes :=
  b <-- fromhex (rjust 64 (remove_hex_prefix s)) ;; to_fixed_bytes 32 b.
(** Lines 109-125 *)
Definition hex_to_bytes256 (s : str) : result bytes :=
  b <-- fromhex (rjust 512 (remove_hex_prefix s)) ;; to_fixed_bytes 256 b.
(** Lines 128-142 *)
Definition hex_to_hash (s : str) : result bytes :=
  b <-- fromhex (remove_hex_prefix s) ;; to_fixed_bytes 32 b.
(** Lines 145-159 *)
Definition hex_to_uint (s : str) : result N := z <-- py_int 16 (remove_hex_prefix s) ;; to_uint z.
(** Lines 162-176 *)
Definition hex_to_u8 (s : str) : result N :=
  z <-- py_int 16 (remove_hex_prefix s) ;; to_bounded U8_CEIL z.
(** Lines 179-193 *)
Definition hex_to_u64 (s : str) : result N :=
  z <-- py_int 16 (remove_hex_prefix s) ;; to_bounded U64_CEIL z.
(** Lines 196-210 *)
Definition hex_to_u256 (s : str) : result N :=
  z <-- py_int 16 (remove_hex_prefix s) ;; to_bounded U256_CEIL z.

(** ** src/ethereum/osaka/utils/hexadecimal.py *)

(** Lines 22-36 *)
Definition hex_to_root (s : str) : result bytes :=
  b <-- fromhex (remove_hex_prefix s) ;; to_fixed_bytes 32 b.
(** Lines 39-53; an address is represented by its number *)
Definition hex_to_address (s : str) : result address :=
  b <-- fromhex (rjust 40 (remove_hex_prefix s)) ;; b <-- to_fixed_bytes 20 b ;; Ok (from_be_bytes b).
