(** * Rlp: recursive length prefix encoding.

    Models the external package [ethereum_rlp] (encode, decode), used by
    transactions.py, blocks.py, trie.py, fork_types.py and utils/address.py.
    The package is not part of the repository; its functions are modelled from
    their documented behaviour (they are part of the trusted reading). *)
From Verif Require Import Base.

(** The [Extended]/[Simple] values: a byte string or a sequence. *)
Inductive rlp :=
| RBytes (b : bytes)
| RList (l : list rlp).

(** Length prefix shared by encode_bytes and encode_sequence:
    [offset = 0x80] for strings, [0xC0] for sequences. *)
Definition encode_length (len : N) (offset : N) : bytes :=
  if len <? 56 then [byte_of_N (offset + len)]
  else let l := to_be_bytes len in
       byte_of_N (offset + 55 + lenN l) :: l.

(** ethereum_rlp.encode_bytes *)
Definition encode_bytes (b : bytes) : bytes :=
  match b with
  | [x] => if Byte.to_N x <? 128 then [x] else encode_length 1 128 ++ [x]
  | _ => encode_length (lenN b) 128 ++ b
  end.

(** ethereum_rlp.encode, encode_sequence, get_joined_encodings *)
Fixpoint encode (r : rlp) : bytes :=
  match r with
  | RBytes b => encode_bytes b
  | RList l =>
      let joined := concat (map encode l) in
      encode_length (lenN joined) 192 ++ joined
  end.

(** [rlp.encode] of an unsigned integer is that of its minimal big-endian
    bytes. *)
Definition RUint (x : N) : rlp := RBytes (to_be_bytes x).
(** An [Address]: 20 bytes. *)
Definition RAddress (a : N) : rlp := RBytes (to_be_bytes20 a).
(** A [Bytes32]/[Hash32] given by its value: 32 bytes. *)
Definition RBytes32 (h : N) : rlp := RBytes (to_be_bytes32 h).

(** ethereum_rlp.decode_item_length; [None] is DecodingError. *)
Definition decode_item_length (d : bytes) : option N :=
  match d with
  | [] => None
  | b :: rest =>
      let x := Byte.to_N b in
      let long (ll : N) :=
        if lenN d <=? ll then None
        else match rest with
             | [] => None
             | r0 :: _ =>
                 if Byte.to_N r0 =? 0 then None
                 else Some (1 + ll + from_be_bytes (takeN ll rest))
             end in
      if x <? 128 then Some 1
      else if x <=? 183 then Some (1 + (x - 128))
      else if x <=? 191 then long (x - 183)
      else if x <=? 247 then Some (1 + (x - 192))
      else long (x - 247)
  end.

(** ethereum_rlp.decode_to_bytes *)
Definition decode_to_bytes (d : bytes) : option bytes :=
  match d with
  | [] => None
  | b :: rest =>
      let x := Byte.to_N b in
      if (lenN d =? 1) && (x <? 128) then Some d
      else if x <=? 183 then
        if x <? 128 then None
        else let len := x - 128 in
        if lenN d <=? len then None
        else let raw := takeN len rest in
        match raw with
        | [r0] => if Byte.to_N r0 <? 128 then None else Some raw
        | _ => Some raw
        end
      else
        let ll := x - 183 in
        if lenN d <=? ll then None
        else match rest with
             | [] => None
             | r0 :: _ =>
                 if Byte.to_N r0 =? 0 then None
                 else let len := from_be_bytes (takeN ll rest) in
                 if len <? 56 then None
                 else if lenN d <? 1 + ll + len then None
                 else Some (takeN len (dropN ll rest))
             end
  end.

(** Payload extraction of ethereum_rlp.decode_to_sequence *)
Definition sequence_payload (d : bytes) : option bytes :=
  match d with
  | [] => None
  | b :: rest =>
      let x := Byte.to_N b in
      if x <=? 247 then
        let len := x - 192 in
        if lenN d <=? len then None else Some (takeN len rest)
      else
        let ll := x - 247 in
        if lenN d <=? ll then None
        else match rest with
             | [] => None
             | r0 :: _ =>
                 if Byte.to_N r0 =? 0 then None
                 else let len := from_be_bytes (takeN ll rest) in
                 if len <? 56 then None
                 else if lenN d <? 1 + ll + len then None
                 else Some (takeN len (dropN ll rest))
             end
  end.

(** ethereum_rlp.decode and decode_joined_encodings, by fuel on the number of
    nested calls; [None] is DecodingError (or exhausted fuel: [decode] below
    supplies enough, see [RlpProofs.v]). *)
Fixpoint decode_fuel (fuel : nat) (d : bytes) : option rlp :=
  match fuel with
  | O => None
  | S f =>
      match d with
      | [] => None
      | b :: _ =>
          if Byte.to_N b <=? 191 then RBytes <$> decode_to_bytes d
          else match sequence_payload d with
               | None => None
               | Some p => RList <$> decode_joined f p
               end
      end
  end
with decode_joined (fuel : nat) (d : bytes) : option (list rlp) :=
  match fuel with
  | O => None
  | S f =>
      match d with
      | [] => Some []
      | _ =>
          match decode_item_length d with
          | None => None
          | Some n =>
              if lenN d <? n then None
              else match decode_fuel f (takeN n d), decode_joined f (dropN n d) with
                   | Some x, Some xs => Some (x :: xs)
                   | _, _ => None
                   end
          end
      end
  end.

Definition decode (d : bytes) : option rlp :=
  decode_fuel (2 * length d + 2) d.
