(** * PropRlp: property C46 (RLP is injective and self-delimiting). *)
From Verif Require Import Base Rlp Vm NumericProofs RlpProofs.
Ltac Zify.zify_post_hook ::= idtac.

(** The encoding as written in the Yellow Paper (appendix B), as a relation
    that mentions neither the encoder nor the decoder. [value l n] says that
    [l] is the big-endian form of [n] without leading zeros. *)
Definition value (l : bytes) (n : N) : Prop :=
  match l with
  | [] => n = 0
  | b :: _ => b <> Byte.x00 /\ fold_left (fun acc b => 256 * acc + Byte.to_N b) l 0 = n
  end.

Inductive Encodes : rlp -> bytes -> Prop :=
| Enc_single x : Byte.to_N x < 128 -> Encodes (RBytes [x]) [x]
| Enc_string b h : (forall x, b = [x] -> 128 <= Byte.to_N x) ->
    Header 128 b h -> Encodes (RBytes b) (h ++ b)
| Enc_list l p h : EncodesAll l p -> Header 192 p h -> Encodes (RList l) (h ++ p)
with EncodesAll : list rlp -> bytes -> Prop :=
| Enc_nil : EncodesAll [] []
| Enc_cons r l a b : Encodes r a -> EncodesAll l b -> EncodesAll (r :: l) (a ++ b)
with Header : N -> bytes -> bytes -> Prop :=
| Hd_short off p x : lenN p <= 55 -> Byte.to_N x = off + lenN p -> Header off p [x]
| Hd_long off p x l : 55 < lenN p -> value l (lenN p) ->
    Byte.to_N x = off + 55 + lenN l -> Header off p (x :: l).

(** Values whose encoding is shorter than 2^64 bytes (the format cannot
    express a longer one). *)
Definition Representable (r : rlp) : Prop := lenN (encode r) < 2 ^ 64.

(** The encoder computes the relation. *)
Theorem C46_encode_correct r : Representable r -> Encodes r (encode r).
Proof.
  assert (Hhead : forall off p, (off = 128 \/ off = 192) -> lenN p < 2 ^ 64 ->
    Header off p (encode_length (lenN p) off)).
  { intros off p Ho Hp.
    destruct (encode_length_header off (lenN p) ltac:(destruct Ho; lia) Hp)
      as [c H1 H2|c b1 r' H1 H2 H3 H4 H5].
    - apply Hd_short; lia.
    - apply Hd_long; [lia| |lia]. split.
      + intros ->. by apply H4.
      + rewrite <- H5. unfold from_be_bytes. clear.
        generalize (b1 :: r'). generalize 0. intros n l. revert n.
        induction l as [|b l IH]; intros n; [done|]. cbn [fold_left].
        rewrite IH. f_equal. lia. }
  unfold Representable.
  induction r as [b|l IH] using rlp_ind_nested; intros Hfit; cbn [encode] in *.
  - destruct (encode_bytes_cases b) as [(x & -> & Hx & E)|[Hx E]]; rewrite E in *.
    + by apply Enc_single.
    + apply Enc_string; [done|]. apply Hhead; [by left|].
      by apply lenN_le_app in Hfit.
  - assert (Hl : lenN (concat (map encode l)) < 2 ^ 64) by (by apply lenN_le_app in Hfit).
    apply Enc_list; [|by apply Hhead; [right|]].
    clear Hfit. induction IH as [|r l Hr Hrs IH']; cbn [map concat] in *; [constructor|].
    rewrite lenN_app in Hl. constructor; [apply Hr; lia|apply IH'; lia].
Qed.

(** Decoding inverts encoding. *)
Theorem C46_roundtrip r : Representable r -> decode (encode r) = Some r.
Proof. apply decode_encode. Qed.

(** No encoding is a prefix of another: an encoding followed by arbitrary
    bytes determines the value and the rest. In particular it is injective. *)
Theorem C46_self_delimiting a b x y : Representable a -> Representable b ->
  encode a ++ x = encode b ++ y -> a = b /\ x = y.
Proof. apply encode_prefix. Qed.

Corollary C46_injective a b : Representable a -> Representable b ->
  encode a = encode b -> a = b.
Proof. apply encode_inj. Qed.

(** Concatenated items are uniquely split. *)
Theorem C46_sequences l m : Forall Representable l -> Forall Representable m ->
  concat (map encode l) = concat (map encode m) -> l = m.
Proof. apply joined_inj. Qed.

(** The decoder accepts nothing but canonical encodings: what it accepts is
    the encoding of the value it returns (followed, at top level only, by
    ignored bytes), so two accepted inputs of the same length and value are
    equal. *)
Theorem C46_canonical d r : lenN d < 2 ^ 64 -> decode d = Some r ->
  exists ignored, d = encode r ++ ignored.
Proof. intros Hd. exact (proj1 (decode_canonical _) d r Hd). Qed.

Corollary C46_not_malleable d1 d2 r : lenN d1 < 2 ^ 64 ->
  lenN d1 = lenN d2 -> decode d1 = Some r -> decode d2 = Some r ->
  exists e i1 i2, d1 = e ++ i1 /\ d2 = e ++ i2 /\ lenN i1 = lenN i2 /\ decode e = Some r.
Proof.
  intros H1 Hl D1 D2.
  destruct (C46_canonical d1 r H1 D1) as [i1 E1].
  destruct (C46_canonical d2 r ltac:(lia) D2) as [i2 E2].
  exists (encode r), i1, i2. rewrite E1, E2, !lenN_app in Hl.
  refine (conj E1 (conj E2 (conj _ _))); [lia|].
  apply C46_roundtrip. unfold Representable. rewrite E1, lenN_app in H1. lia.
Qed.

(** Non-vacuity: nested lists, the single byte boundary, and long strings and
    lists. *)
Definition long_string : bytes := repeat Byte.x61 300.
Example C46_nonvacuous :
  let r := RList [RBytes [Byte.x7f]; RBytes [Byte.x80]; RBytes [];
                  RList [RList []; RBytes long_string]] in
  Representable r /\ decode (encode r) = Some r /\
  takeN 3 (encode r) = [Byte.xf9; Byte.x01; Byte.x37] /\
  encode (RBytes [Byte.x7f]) = [Byte.x7f] /\ encode (RBytes [Byte.x80]) = [Byte.x81; Byte.x80] /\
  (* a non-minimal encoding of one byte, and a length with a leading zero, are refused *)
  decode [Byte.x81; Byte.x7f] = None /\
  decode (Byte.xb9 :: Byte.x00 :: Byte.x38 :: repeat Byte.x61 56) = None /\
  decode (Byte.xb8 :: Byte.x38 :: repeat Byte.x61 56) = Some (RBytes (repeat Byte.x61 56)) /\
  (* bytes after the item are ignored at top level and refused inside a list *)
  decode [Byte.x82; Byte.x61; Byte.x62; Byte.x63] = Some (RBytes [Byte.x61; Byte.x62]) /\
  decode [Byte.xc1; Byte.x82; Byte.x61; Byte.x62] = None.
Proof. vm_compute. repeat split. Qed.

Definition PropRlp_theorems := (C46_encode_correct, C46_roundtrip, C46_self_delimiting,
  C46_injective, C46_sequences, C46_canonical, C46_not_malleable).
Print Assumptions PropRlp_theorems.
