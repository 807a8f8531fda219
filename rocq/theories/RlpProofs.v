(** * RlpProofs: the RLP encoder and decoder of [Rlp.v]. *)
From Verif Require Import Base Rlp Vm NumericProofs.
Ltac Zify.zify_post_hook ::= idtac.

(** ** Minimal big-endian numbers *)
Lemma to_be_bytes_len x : lenN (to_be_bytes x) = (bit_length x + 7) / 8.
Proof. unfold to_be_bytes. rewrite to_be_fixed_len. lia. Qed.

Lemma size_bound x : x < 2 ^ bit_length x.
Proof. unfold bit_length. apply N.size_gt. Qed.

Lemma bytes_bound x : x < 256 ^ ((bit_length x + 7) / 8).
Proof.
  change 256 with (2 ^ 8). rewrite <- N.pow_mul_r.
  eapply N.lt_le_trans; [apply size_bound|].
  apply N.pow_le_mono_r; [lia|].
  pose proof (N.div_mod (bit_length x + 7) 8 ltac:(lia)).
  pose proof (N.mod_lt (bit_length x + 7) 8 ltac:(lia)). lia.
Qed.

Lemma from_to_be_bytes x : from_be_bytes (to_be_bytes x) = x.
Proof.
  unfold to_be_bytes. rewrite from_to_be_fixed. rewrite N2Nat.id.
  apply N.mod_small, bytes_bound.
Qed.

Lemma to_be_bytes_inj x y : to_be_bytes x = to_be_bytes y -> x = y.
Proof. intros H. rewrite <- (from_to_be_bytes x), <- (from_to_be_bytes y). by rewrite H. Qed.

Lemma to_be_bytes_0 : to_be_bytes 0 = [].
Proof. reflexivity. Qed.

Lemma size_le x n : x < 2 ^ n -> bit_length x <= n.
Proof.
  unfold bit_length. destruct (N.eq_dec x 0) as [->|Hx]; [simpl; lia|].
  intros H. rewrite N.size_log2 by done.
  pose proof (N.log2_lt_pow2 x n ltac:(lia)) as [L _]. specialize (L H). lia.
Qed.

Lemma to_be_bytes_len_le x n : x < 256 ^ n -> lenN (to_be_bytes x) <= n.
Proof.
  rewrite to_be_bytes_len. change 256 with (2 ^ 8). rewrite <- N.pow_mul_r.
  intros H%size_le. apply N.lt_succ_r. apply N.div_lt_upper_bound; lia.
Qed.

(** The first byte of a minimal representation is not zero. *)
Lemma to_be_bytes_head x : x <> 0 ->
  exists b r, to_be_bytes x = b :: r /\ Byte.to_N b <> 0.
Proof.
  intros Hx. destruct (to_be_bytes x) as [|b r] eqn:E.
  - exfalso. apply Hx. rewrite <- (from_to_be_bytes x), E. done.
  - exists b, r. split; [done|]. intros Hb.
    pose proof (from_to_be_bytes x) as F. rewrite E, from_be_cons, Hb in F.
    pose proof (from_be_lt r) as L.
    assert (Hlt : x < 256 ^ lenN r) by lia.
    apply to_be_bytes_len_le in Hlt. rewrite E, lenN_cons in Hlt. lia.
Qed.

(** A byte string without leading zero is the minimal representation of its
    value. *)
Lemma to_from_be_bytes b r : Byte.to_N b <> 0 ->
  to_be_bytes (from_be_bytes (b :: r)) = b :: r.
Proof.
  intros Hb. set (x := from_be_bytes (b :: r)).
  assert (Hx : x <> 0).
  { unfold x. rewrite from_be_cons. pose proof (N.pow_nonzero 256 (lenN r)). nia. }
  apply from_be_inj; [|apply from_to_be_bytes].
  apply Nat2N.inj. change (lenN (to_be_bytes x) = lenN (b :: r)).
  apply N.le_antisymm.
  - apply to_be_bytes_len_le. apply from_be_lt.
  - destruct (N.le_gt_cases (lenN (b :: r)) (lenN (to_be_bytes x))) as [|H]; [done|].
    exfalso. pose proof (from_be_lt (to_be_bytes x)) as L.
    rewrite from_to_be_bytes in L. rewrite lenN_cons in H.
    assert (256 ^ lenN (to_be_bytes x) <= 256 ^ lenN r) by (apply N.pow_le_mono_r; lia).
    unfold x in L at 1. rewrite from_be_cons in L. nia.
Qed.

(** ** One item *)

(** Everything the encoder is given is shorter than 2^64 bytes. *)
Definition fits (r : rlp) : Prop := lenN (encode r) < 2 ^ 64.

Definition payload (r : rlp) : bytes :=
  match r with RBytes b => b | RList l => concat (map encode l) end.

Lemma length_of_length n : n < 2 ^ 64 -> 56 <= n ->
  exists b r, to_be_bytes n = b :: r /\ Byte.to_N b <> 0 /\ lenN (b :: r) <= 8.
Proof.
  intros H Hge. destruct (to_be_bytes_head n ltac:(lia)) as (b & r & E & Hb).
  exists b, r. split; [done|]. split; [done|]. rewrite <- E.
  apply to_be_bytes_len_le. exact H.
Qed.

Lemma head_byte off n : off + n < 256 -> Byte.to_N (byte_of_N (off + n)) = off + n.
Proof. apply byte_of_N_to_N. Qed.

(** A header announcing [n] bytes of payload, for strings ([128]) and
    sequences ([192]). *)
Inductive header (off n : N) : bytes -> Prop :=
| header_short b : n < 56 -> Byte.to_N b = off + n -> header off n [b]
| header_long b b1 r : 56 <= n -> Byte.to_N b = off + 55 + lenN (b1 :: r) ->
    lenN (b1 :: r) <= 8 -> Byte.to_N b1 <> 0 -> from_be_bytes (b1 :: r) = n ->
    header off n (b :: b1 :: r).

Lemma encode_length_header off n : off <= 192 -> n < 2 ^ 64 ->
  header off n (encode_length n off).
Proof.
  intros Ho Hn. unfold encode_length. destruct (N.ltb_spec n 56) as [H|H].
  - apply header_short; [done|]. apply head_byte. lia.
  - destruct (length_of_length n Hn H) as (b & r & E & Hb & Hl).
    rewrite E. apply header_long; [done| |done|done|].
    + apply head_byte. lia.
    + rewrite <- E. apply from_to_be_bytes.
Qed.

Lemma header_unique off n h : off <= 192 -> header off n h -> h = encode_length n off.
Proof.
  intros Ho [b H1 H2|b b1 r H1 H2 H3 H4 H5]; unfold encode_length.
  - destruct (N.ltb_spec n 56); [|lia]. rewrite <- H2. by rewrite byte_to_N_of_N.
  - destruct (N.ltb_spec n 56); [lia|]. rewrite <- H5.
    rewrite to_from_be_bytes by done. rewrite <- H2. by rewrite byte_to_N_of_N.
Qed.

Lemma encode_bytes_cases b :
  (exists x, b = [x] /\ Byte.to_N x < 128 /\ encode_bytes b = [x]) \/
  ((forall x, b = [x] -> 128 <= Byte.to_N x) /\
   encode_bytes b = encode_length (lenN b) 128 ++ b).
Proof.
  destruct b as [|x [|y r]].
  - right. split; [done|]. done.
  - unfold encode_bytes. destruct (N.ltb_spec (Byte.to_N x) 128).
    + left. eauto.
    + right. split; [|done]. intros z [= <-]. done.
  - right. split; [done|]. done.
Qed.

Lemma lenN_le_app {A} (a b : list A) n : lenN (a ++ b) < n -> lenN b < n.
Proof. rewrite lenN_app. lia. Qed.

(** The length of an item is read off its header, whatever follows. *)
Lemma item_length_header off n h p s : off = 128 \/ off = 192 ->
  header off n h -> n = lenN p -> (off = 128 -> forall x, p = [x] -> 128 <= Byte.to_N x) ->
  decode_item_length (h ++ p ++ s) = Some (lenN (h ++ p)).
Proof.
  intros Ho Hh Hp _. rewrite lenN_app, <- Hp.
  destruct Hh as [b H1 H2|b b1 r H1 H2 H3 H4 H5]; cbn [app decode_item_length].
  - rewrite H2. replace (lenN [b]) with 1 by done. destruct Ho as [-> | ->].
    + destruct (N.ltb_spec (128 + n) 128); [lia|].
      destruct (N.leb_spec (128 + n) 183); [|lia]. f_equal. lia.
    + destruct (N.ltb_spec (192 + n) 128); [lia|].
      destruct (N.leb_spec (192 + n) 183); [lia|].
      destruct (N.leb_spec (192 + n) 191); [lia|].
      destruct (N.leb_spec (192 + n) 247); [|lia]. f_equal. lia.
  - pose proof (lenN_cons b1 r) as Hc.
    assert (Hlong : forall ll, ll = lenN (b1 :: r) ->
      (if lenN (b :: b1 :: r ++ p ++ s) <=? ll then None
       else if Byte.to_N b1 =? 0 then None
            else Some (1 + ll + from_be_bytes (takeN ll (b1 :: r ++ p ++ s))))
      = Some (lenN (b :: b1 :: r) + n)).
    { intros ll ->. rewrite (lenN_cons b).
      change (b1 :: r ++ p ++ s) with ((b1 :: r) ++ p ++ s).
      rewrite takeN_app_exact by done. rewrite lenN_app.
      destruct (N.leb_spec (1 + (lenN (b1 :: r) + lenN (p ++ s))) (lenN (b1 :: r))); [lia|].
      destruct (N.eqb_spec (Byte.to_N b1) 0); [done|].
      rewrite (lenN_cons b), H5. done. }
    rewrite H2. destruct Ho as [-> | ->].
    + destruct (N.ltb_spec (128 + 55 + lenN (b1 :: r)) 128); [lia|].
      destruct (N.leb_spec (128 + 55 + lenN (b1 :: r)) 183); [lia|].
      destruct (N.leb_spec (128 + 55 + lenN (b1 :: r)) 191); [|lia].
      apply Hlong. lia.
    + destruct (N.ltb_spec (192 + 55 + lenN (b1 :: r)) 128); [lia|].
      destruct (N.leb_spec (192 + 55 + lenN (b1 :: r)) 183); [lia|].
      destruct (N.leb_spec (192 + 55 + lenN (b1 :: r)) 191); [lia|].
      destruct (N.leb_spec (192 + 55 + lenN (b1 :: r)) 247); [lia|].
      apply Hlong. lia.
Qed.

Lemma item_length r s : fits r ->
  decode_item_length (encode r ++ s) = Some (lenN (encode r)).
Proof.
  unfold fits. destruct r as [b|l]; cbn [encode].
  - destruct (encode_bytes_cases b) as [(x & -> & Hx & E)|[Hx E]]; rewrite E.
    + intros _. cbn [app decode_item_length]. destruct (N.ltb_spec (Byte.to_N x) 128); [done|lia].
    + intros H. rewrite <- app_assoc.
      eapply (item_length_header 128); [by left| |reflexivity|done].
      apply encode_length_header; [lia|]. by apply lenN_le_app in H.
  - intros H. rewrite <- app_assoc.
    eapply (item_length_header 192); [by right| |reflexivity|done].
    apply encode_length_header; [lia|]. by apply lenN_le_app in H.
Qed.

Lemma encode_nonempty r : exists x l, encode r = x :: l.
Proof.
  assert (Hl : forall n off p, exists x l, encode_length n off ++ p = x :: l).
  { intros. unfold encode_length. destruct (n <? 56); cbn [app]; eauto. }
  destruct r as [b|l]; cbn [encode]; [|apply Hl].
  destruct (encode_bytes_cases b) as [(x & -> & Hx & E)|[Hx E]]; rewrite E; eauto.
Qed.

(** Strings. *)
Lemma decode_bytes_header b h s : header 128 (lenN b) h ->
  (forall x, b = [x] -> 128 <= Byte.to_N x) ->
  decode_to_bytes (h ++ b ++ s) = Some b.
Proof.
  intros Hh Hb. destruct Hh as [c H1 H2|c b1 r H1 H2 H3 H4 H5]; cbn [app decode_to_bytes].
  - rewrite H2. destruct (N.ltb_spec (128 + lenN b) 128); [lia|].
    rewrite andb_false_r. destruct (N.leb_spec (128 + lenN b) 183); [|lia].
    replace (128 + lenN b - 128) with (lenN b) by lia.
    rewrite lenN_cons, lenN_app. destruct (N.leb_spec (1 + (lenN b + lenN s)) (lenN b)); [lia|].
    rewrite takeN_app_exact by done.
    destruct b as [|x [|y b]]; [done| |done].
    destruct (N.ltb_spec (Byte.to_N x) 128); [|done].
    specialize (Hb x eq_refl). lia.
  - pose proof (lenN_cons b1 r) as Hc. rewrite H2.
    destruct (N.ltb_spec (128 + 55 + lenN (b1 :: r)) 128); [lia|].
    rewrite andb_false_r.
    destruct (N.leb_spec (128 + 55 + lenN (b1 :: r)) 183); [lia|].
    replace (128 + 55 + lenN (b1 :: r) - 183) with (lenN (b1 :: r)) by lia.
    change (b1 :: r ++ b ++ s) with ((b1 :: r) ++ b ++ s).
    rewrite (lenN_cons c), lenN_app.
    destruct (N.leb_spec (1 + (lenN (b1 :: r) + lenN (b ++ s))) (lenN (b1 :: r))); [lia|].
    cbn [app]. destruct (N.eqb_spec (Byte.to_N b1) 0); [done|].
    change (b1 :: r ++ b ++ s) with ((b1 :: r) ++ b ++ s).
    rewrite takeN_app_exact, dropN_app_exact by done. rewrite H5.
    destruct (N.ltb_spec (lenN b) 56); [lia|]. rewrite lenN_app.
    destruct (N.ltb_spec (1 + (lenN (b1 :: r) + (lenN b + lenN s)))
                (1 + lenN (b1 :: r) + lenN b)); [lia|].
    by rewrite takeN_app_exact by done.
Qed.

Lemma decode_bytes_encode b : lenN b < 2 ^ 64 -> decode_to_bytes (encode_bytes b) = Some b.
Proof.
  intros H. destruct (encode_bytes_cases b) as [(x & -> & Hx & E)|[Hx E]]; rewrite E.
  - cbn [decode_to_bytes]. destruct (N.ltb_spec (Byte.to_N x) 128); [done|lia].
  - rewrite <- (app_nil_r b) at 2. apply decode_bytes_header; [|done].
    apply encode_length_header; [lia|done].
Qed.

(** Sequences. *)
Lemma sequence_payload_header p h s : header 192 (lenN p) h ->
  sequence_payload (h ++ p ++ s) = Some p.
Proof.
  intros Hh. destruct Hh as [c H1 H2|c b1 r H1 H2 H3 H4 H5]; cbn [app sequence_payload].
  - rewrite H2. destruct (N.leb_spec (192 + lenN p) 247); [|lia].
    replace (192 + lenN p - 192) with (lenN p) by lia.
    rewrite lenN_cons, lenN_app. destruct (N.leb_spec (1 + (lenN p + lenN s)) (lenN p)); [lia|].
    by rewrite takeN_app_exact.
  - pose proof (lenN_cons b1 r) as Hc. rewrite H2.
    destruct (N.leb_spec (192 + 55 + lenN (b1 :: r)) 247); [lia|].
    replace (192 + 55 + lenN (b1 :: r) - 247) with (lenN (b1 :: r)) by lia.
    change (b1 :: r ++ p ++ s) with ((b1 :: r) ++ p ++ s).
    rewrite (lenN_cons c), lenN_app.
    destruct (N.leb_spec (1 + (lenN (b1 :: r) + lenN (p ++ s))) (lenN (b1 :: r))); [lia|].
    cbn [app]. destruct (N.eqb_spec (Byte.to_N b1) 0); [done|].
    change (b1 :: r ++ p ++ s) with ((b1 :: r) ++ p ++ s).
    rewrite takeN_app_exact, dropN_app_exact by done. rewrite H5.
    destruct (N.ltb_spec (lenN p) 56); [lia|]. rewrite lenN_app.
    destruct (N.ltb_spec (1 + (lenN (b1 :: r) + (lenN p + lenN s)))
                (1 + lenN (b1 :: r) + lenN p)); [lia|].
    by rewrite takeN_app_exact by done.
Qed.

(** ** Decoding inverts encoding *)
Lemma rlp_ind_nested (P : rlp -> Prop) :
  (forall b, P (RBytes b)) -> (forall l, Forall P l -> P (RList l)) -> forall r, P r.
Proof.
  intros HB HL. fix IH 1. intros [b|l]; [apply HB|]. apply HL.
  induction l as [|x l IHl]; constructor; [apply IH|apply IHl].
Qed.

Lemma fits_list l : fits (RList l) -> Forall fits l.
Proof.
  unfold fits. cbn [encode]. rewrite lenN_app. intros H.
  assert (Hc : lenN (concat (map encode l)) < 2 ^ 64) by lia. clear H.
  induction l as [|x l IH]; [constructor|]. cbn [map concat] in Hc.
  rewrite lenN_app in Hc. constructor; [unfold fits; lia|]. apply IH. lia.
Qed.

Lemma header_len_pos off n h : header off n h -> 1 <= lenN h.
Proof. intros [b|b b1 r]; rewrite lenN_cons; lia. Qed.

Lemma decode_joined_encode l f :
  Forall (fun r => fits r /\ forall f, (2 * length (encode r) + 1 <= f)%nat ->
    decode_fuel f (encode r) = Some r) l ->
  (2 * length (concat (map encode l)) + 2 <= f)%nat ->
  decode_joined f (concat (map encode l)) = Some l.
Proof.
  intros Hl. revert f. induction Hl as [|r l [Hr1 Hr2] Hl IH]; intros f Hf.
  - cbn [map concat]. destruct f; [cbn in Hf; lia|]. done.
  - cbn [map concat] in *. destruct f as [|f]; [lia|]. cbn [decode_joined].
    destruct (encode_nonempty r) as (x & t & E).
    rewrite app_length in Hf.
    assert (Hlen : (1 <= length (encode r))%nat) by (rewrite E; cbn [length]; lia).
    destruct (encode r ++ concat (map encode l)) as [|y z] eqn:E2.
    { rewrite E in E2. done. }
    rewrite <- E2. rewrite item_length by done. rewrite lenN_app.
    destruct (N.ltb_spec (lenN (encode r) + lenN (concat (map encode l))) (lenN (encode r))); [lia|].
    rewrite takeN_app_exact, dropN_app_exact by done.
    rewrite Hr2 by lia. rewrite IH by lia. done.
Qed.

Lemma encode_list_byte l f : (1 <= f)%nat -> fits (RList l) ->
  decode_fuel f (encode (RList l))
  = RList <$> decode_joined (pred f) (concat (map encode l)).
Proof.
  intros Hf H. destruct f as [|f]; [lia|]. cbn [pred]. unfold fits in H.
  cbn [encode] in *. set (p := concat (map encode l)) in *.
  assert (Hp : lenN p < 2 ^ 64) by (rewrite lenN_app in H; lia).
  pose proof (encode_length_header 192 (lenN p) ltac:(lia) Hp) as Hh.
  pose proof (sequence_payload_header p _ [] Hh) as Hs. rewrite app_nil_r in Hs.
  destruct Hh as [c H1 H2|c b1 r H1 H2 H3 H4 H5]; cbn [decode_fuel app] in *; rewrite H2.
  - destruct (N.leb_spec (192 + lenN p) 191); [lia|]. by rewrite Hs.
  - destruct (N.leb_spec (192 + 55 + lenN (b1 :: r)) 191); [lia|]. by rewrite Hs.
Qed.

Lemma decode_fuel_encode r : fits r -> forall f, (2 * length (encode r) + 1 <= f)%nat ->
  decode_fuel f (encode r) = Some r.
Proof.
  induction r as [b|l IH] using rlp_ind_nested; intros Hfit f Hf.
  - destruct f as [|f]; [lia|]. unfold fits in Hfit. cbn [encode] in *.
    assert (Hb : lenN b < 2 ^ 64).
    { destruct (encode_bytes_cases b) as [(x & -> & Hx & E)|[Hx E]];
        [unfold lenN; cbn [length]; lia|]. rewrite E in Hfit. by apply lenN_le_app in Hfit. }
    pose proof (decode_bytes_encode b Hb) as Hd.
    assert (Hc : exists c t, encode_bytes b = c :: t /\ Byte.to_N c <= 191).
    { destruct (encode_bytes_cases b) as [(x & -> & Hx & E)|[Hx E]]; rewrite E.
      - exists x, []. split; [done|lia].
      - destruct (encode_length_header 128 (lenN b) ltac:(lia) Hb)
          as [c H1 H2|c b1 r H1 H2 H3 H4 H5]; cbn [app]; eexists _, _; (split; [done|]); lia. }
    destruct Hc as (c & t & E & Hc). rewrite E in *. cbn [decode_fuel].
    destruct (N.leb_spec (Byte.to_N c) 191); [|lia]. by rewrite Hd.
  - rewrite encode_list_byte by (try done; lia).
    assert (Hlen : (length (concat (map encode l)) + 1 <= length (encode (RList l)))%nat).
    { cbn [encode]. rewrite app_length. unfold encode_length.
      destruct (_ <? 56); cbn [length]; lia. }
    rewrite decode_joined_encode; [done| |lia].
    apply Forall_forall. intros r Hr. rewrite Forall_forall in IH.
    pose proof (fits_list l Hfit) as Hfl. rewrite Forall_forall in Hfl.
    split; [by apply Hfl|]. apply IH; [done|by apply Hfl].
Qed.

Lemma decode_encode r : fits r -> decode (encode r) = Some r.
Proof. intros H. apply decode_fuel_encode; [done|lia]. Qed.

(** Encodings are self-delimiting: an encoding followed by anything determines
    both parts. *)
Lemma encode_prefix a b x y : fits a -> fits b ->
  encode a ++ x = encode b ++ y -> a = b /\ x = y.
Proof.
  intros Ha Hb H. pose proof (item_length a x Ha) as La. rewrite H in La.
  rewrite item_length in La by done. injection La as La.
  assert (E : encode a = encode b).
  { rewrite <- (takeN_app_exact (lenN (encode a)) (encode a) x) by done.
    rewrite H. rewrite takeN_app_exact by done. done. }
  split.
  - pose proof (decode_encode a Ha) as Da. rewrite E, decode_encode in Da by done. congruence.
  - rewrite E in H. by apply app_inv_head in H.
Qed.

Lemma encode_inj a b : fits a -> fits b -> encode a = encode b -> a = b.
Proof.
  intros Ha Hb H. apply (encode_prefix a b [] []); [done|done|]. by rewrite !app_nil_r.
Qed.

Lemma joined_inj l1 l2 : Forall fits l1 -> Forall fits l2 ->
  concat (map encode l1) = concat (map encode l2) -> l1 = l2.
Proof.
  intros H1. revert l2. induction H1 as [|a l1 Ha H1 IH]; intros l2 H2 E.
  - destruct H2 as [|b l2 Hb H2]; [done|]. cbn [map concat] in E.
    destruct (encode_nonempty b) as (x & t & Eb). rewrite Eb in E. done.
  - destruct H2 as [|b l2 Hb H2]; cbn [map concat] in E.
    + destruct (encode_nonempty a) as (x & t & Ea). rewrite Ea in E. done.
    + destruct (encode_prefix _ _ _ _ Ha Hb E) as [-> E2]. f_equal. by apply IH.
Qed.

(** ** Everything decoded was canonically encoded *)
Lemma takeN_split {A} n (l : list A) : n <= lenN l ->
  exists a b, l = a ++ b /\ lenN a = n /\ takeN n l = a /\ dropN n l = b.
Proof.
  intros H. exists (takeN n l), (dropN n l). rewrite takeN_dropN, lenN_takeN.
  repeat split; lia.
Qed.

Lemma decode_bytes_canonical c d b : Byte.to_N c <= 191 ->
  decode_to_bytes (c :: d) = Some b -> exists s, c :: d = encode_bytes b ++ s.
Proof.
  intros Hc. cbn [decode_to_bytes].
  destruct (N.eqb_spec (lenN (c :: d)) 1) as [H1|H1]; cbn [andb].
  - destruct (N.ltb_spec (Byte.to_N c) 128) as [H2|H2]; intros E.
    + injection E as <-. rewrite lenN_cons in H1. assert (d = []) as -> by (apply lenN_0; lia).
      exists []. cbn [encode_bytes]. destruct (N.ltb_spec (Byte.to_N c) 128); [done|lia].
    + rewrite lenN_cons in H1. assert (d = []) as -> by (apply lenN_0; lia).
      revert E. cbn [takeN]. destruct (N.leb_spec (Byte.to_N c) 183) as [H3|H3].
      * destruct (N.leb_spec (lenN [c]) (Byte.to_N c - 128)); [done|].
        intros [= <-]. rewrite lenN_cons, lenN_nil in *. exists [].
        cbn [encode_bytes app]. rewrite lenN_nil. unfold encode_length.
        replace (0 <? 56) with true by done. replace (128 + 0) with (Byte.to_N c) by lia.
        by rewrite byte_to_N_of_N.
      * destruct (lenN [c] <=? _); done.
  - destruct (N.leb_spec (Byte.to_N c) 183) as [H3|H3].
    + destruct (N.ltb_spec (Byte.to_N c) 128) as [H2|H2]; [done|].
      destruct (N.leb_spec (lenN (c :: d)) (Byte.to_N c - 128)) as [H4|H4]; [done|].
      rewrite lenN_cons in H4.
      destruct (takeN_split (Byte.to_N c - 128) d ltac:(lia)) as (a & s & -> & Hl & -> & _).
      intros E. assert (a = b /\ (forall x, a = [x] -> 128 <= Byte.to_N x)) as [<- Hx].
      { destruct a as [|x [|y a]]; [by injection E as <-| |by injection E as <-].
        destruct (N.ltb_spec (Byte.to_N x) 128); [done|]. injection E as <-.
        split; [done|]. by intros ? [= <-]. }
      exists s. destruct (encode_bytes_cases a) as [(x & -> & Hx' & _)|[_ Ee]].
      { specialize (Hx x eq_refl). lia. }
      rewrite Ee. rewrite <- (header_unique 128 (lenN a) [c]); [done|lia|].
      apply header_short; lia.
    + destruct (N.leb_spec (lenN (c :: d)) (Byte.to_N c - 183)) as [H4|H4]; [done|].
      destruct d as [|r0 d]; [done|].
      destruct (N.eqb_spec (Byte.to_N r0) 0) as [H5|H5]; [done|].
      rewrite lenN_cons in H4.
      destruct (takeN_split (Byte.to_N c - 183) (r0 :: d) ltac:(lia)) as (h & t & E & Hl & -> & ->).
      destruct (N.ltb_spec (from_be_bytes h) 56) as [H6|H6]; [done|].
      destruct (N.ltb_spec (lenN (c :: r0 :: d)) (1 + (Byte.to_N c - 183) + from_be_bytes h)) as [H7|H7]; [done|].
      rewrite E in *. rewrite lenN_cons, lenN_app in H7.
      destruct (takeN_split (from_be_bytes h) t ltac:(lia)) as (a & s & -> & Hla & -> & _).
      intros [= <-].
      exists s. destruct (encode_bytes_cases a) as [(x & -> & Hx' & _)|[_ Ee]].
      { rewrite lenN_cons, lenN_nil in Hla. lia. }
      rewrite Ee. destruct h as [|h0 h]; [cbn in H6; lia|]. injection E as <- _.
      rewrite <- (header_unique 128 (lenN a) (c :: r0 :: h)).
      * by rewrite <- app_assoc.
      * lia.
      * apply header_long; [lia|lia|lia|done|done].
Qed.

Lemma sequence_canonical c d p : 191 < Byte.to_N c ->
  sequence_payload (c :: d) = Some p ->
  exists s, c :: d = encode_length (lenN p) 192 ++ p ++ s.
Proof.
  intros Hc. cbn [sequence_payload]. pose proof (byte_to_N_lt c) as Hc2.
  destruct (N.leb_spec (Byte.to_N c) 247) as [H3|H3].
  - destruct (N.leb_spec (lenN (c :: d)) (Byte.to_N c - 192)) as [H4|H4]; [done|].
    rewrite lenN_cons in H4.
    destruct (takeN_split (Byte.to_N c - 192) d ltac:(lia)) as (a & s & -> & Hl & -> & _).
    intros [= <-]. exists s.
    rewrite <- (header_unique 192 (lenN a) [c]); [done|lia|].
    apply header_short; lia.
  - destruct (N.leb_spec (lenN (c :: d)) (Byte.to_N c - 247)) as [H4|H4]; [done|].
    destruct d as [|r0 d]; [done|].
    destruct (N.eqb_spec (Byte.to_N r0) 0) as [H5|H5]; [done|].
    rewrite lenN_cons in H4.
    destruct (takeN_split (Byte.to_N c - 247) (r0 :: d) ltac:(lia)) as (h & t & E & Hl & -> & ->).
    destruct (N.ltb_spec (from_be_bytes h) 56) as [H6|H6]; [done|].
    destruct (N.ltb_spec (lenN (c :: r0 :: d)) (1 + (Byte.to_N c - 247) + from_be_bytes h)) as [H7|H7]; [done|].
    rewrite E in *. rewrite lenN_cons, lenN_app in H7.
    destruct (takeN_split (from_be_bytes h) t ltac:(lia)) as (a & s & -> & Hla & -> & _).
    intros [= <-]. exists s.
    destruct h as [|h0 h]; [cbn in H6; lia|]. injection E as <- _.
    rewrite <- (header_unique 192 (lenN a) (c :: r0 :: h)).
    + done.
    + lia.
    + apply header_long; [lia|lia|lia|done|done].
Qed.

Lemma decode_canonical f :
  (forall d r, lenN d < 2 ^ 64 -> decode_fuel f d = Some r -> exists s, d = encode r ++ s) /\
  (forall d l, lenN d < 2 ^ 64 -> decode_joined f d = Some l -> d = concat (map encode l)).
Proof.
  induction f as [|f [IH1 IH2]]; [split; done|]. split.
  - intros [|c d] r Hd; [done|]. cbn [decode_fuel].
    destruct (N.leb_spec (Byte.to_N c) 191) as [Hc|Hc].
    + destruct (decode_to_bytes (c :: d)) as [b|] eqn:E; [|done].
      intros [= <-]. exact (decode_bytes_canonical _ _ _ Hc E).
    + destruct (sequence_payload (c :: d)) as [p|] eqn:E; [|done].
      destruct (decode_joined f p) as [l|] eqn:El; [|done]. intros [= <-].
      destruct (sequence_canonical _ _ _ Hc E) as [s Es]. exists s.
      rewrite Es in *. rewrite !lenN_app in Hd. apply IH2 in El; [|lia]. subst p.
      cbn [encode]. by rewrite <- app_assoc.
  - intros [|c d] l Hd; cbn [decode_joined]; [by intros [= <-]|].
    destruct (decode_item_length (c :: d)) as [n|] eqn:E; [|done].
    destruct (N.ltb_spec (lenN (c :: d)) n) as [Hn|Hn]; [done|].
    destruct (takeN_split n (c :: d) Hn) as (a & b & Eab & Hl & -> & ->).
    rewrite Eab in *. rewrite lenN_app in Hd.
    destruct (decode_fuel f a) as [x|] eqn:Ex; [|done].
    destruct (decode_joined f b) as [xs|] eqn:Exs; [|done].
    intros [= <-]. apply IH2 in Exs; [|lia].
    destruct (IH1 a x ltac:(lia) Ex) as [s Es].
    assert (fits x) by (unfold fits; rewrite Es, lenN_app in Hd; lia).
    rewrite Es, <- app_assoc in E. rewrite item_length in E by done.
    injection E as E. rewrite Es, lenN_app in Hl.
    assert (s = []) as -> by (apply lenN_0; lia). rewrite app_nil_r in Es.
    cbn [map concat]. by rewrite Es, Exs.
Qed.

(** Bounds on the size of an encoding. *)
Lemma encode_length_len n off : n < 2 ^ 64 -> lenN (encode_length n off) <= 9.
Proof.
  intros Hn. unfold encode_length. destruct (N.ltb_spec n 56) as [H|H].
  - unfold lenN. cbn. lia.
  - destruct (length_of_length n Hn H) as (b & r & E & _ & Hl). rewrite E, lenN_cons. lia.
Qed.

Lemma encode_bytes_len b : lenN b < 2 ^ 64 -> lenN (encode (RBytes b)) <= 9 + lenN b.
Proof.
  intros H. cbn [encode]. destruct (encode_bytes_cases b) as [(x & -> & _ & E)|[_ E]]; rewrite E.
  - lia.
  - rewrite lenN_app. pose proof (encode_length_len (lenN b) 128 H). lia.
Qed.

Lemma encode_list_fits l : lenN (concat (map encode l)) < 2 ^ 62 -> fits (RList l).
Proof.
  intros H. unfold fits. cbn [encode]. rewrite lenN_app.
  pose proof (encode_length_len (lenN (concat (map encode l))) 192 ltac:(lia)). lia.
Qed.
