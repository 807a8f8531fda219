(** * PropHex: numbers and byte strings written as text (C67) *)
From Coq Require Import ZifyBool ZifyN ZifyNat Strings.String.
From Verif Require Import Base State NumericProofs Hexadecimal.
Ltac Zify.zify_post_hook ::= idtac.
Local Close Scope string_scope.

(** ** Vocabulary *)

Definition text (s : string) : bytes := list_byte_of_string s.
Definition numbers16 : list N := [0; 1; 2; 3; 4; 5; 6; 7; 8; 9; 10; 11; 12; 13; 14; 15].
(** The digits: sixteen, letters in both cases *)
Definition hex_digits : list (byte * N) :=
  combine (text "0123456789abcdef") numbers16 ++ combine (text "0123456789ABCDEF") numbers16.
Definition denotes (base : N) (c : byte) (d : N) : Prop := In (c, d) hex_digits /\ d < base.
(** The number with these digits, the first being the most significant *)
Fixpoint value (base : N) (ds : list N) : N :=
  match ds with
  | [] => 0
  | d :: ds => d * base ^ lenN ds + value base ds
  end.
(** A text of digits only *)
Definition digits (base : N) (s : bytes) (ds : list N) : Prop := Forall2 (denotes base) s ds.

Definition spaces (s : bytes) : Prop :=
  Forall (fun c => In (Byte.to_N c) [9; 10; 11; 12; 13; 28; 29; 30; 31; 32; 133; 160]) s.
Definition ascii_space (c : byte) : Prop := In (Byte.to_N c) [9; 10; 11; 12; 13; 32].

(** Digits, single underscores allowed between two of them *)
Inductive numeral (base : N) : bytes -> list N -> Prop :=
| nu_last c d : denotes base c d -> numeral base [c] [d]
| nu_digit c d s ds : denotes base c d -> numeral base s ds -> numeral base (c :: s) (d :: ds)
| nu_under c d s ds : denotes base c d -> numeral base s ds ->
    numeral base (c :: "_"%byte :: s) (d :: ds).
(** What Python reads as the number [z] *)
Definition literal (base : N) (s : bytes) (z : Z) : Prop :=
  exists before sign prefix body after ds,
    s = before ++ sign ++ prefix ++ body ++ after /\ spaces before /\ spaces after /\
    numeral base body ds /\
    (prefix = [] \/ (base = 16 /\ In prefix [text "0x"; text "0X"; text "0x_"; text "0X_"])) /\
    (((sign = [] \/ sign = text "+") /\ z = Z.of_N (value base ds)) \/
     (sign = text "-" /\ z = (- Z.of_N (value base ds))%Z)).

(** Two digits per byte, spaces between bytes *)
Inductive hex_text : bytes -> bytes -> Prop :=
| ht_end : hex_text [] []
| ht_space c s b : ascii_space c -> hex_text s b -> hex_text (c :: s) b
| ht_byte c h d l x s b : denotes 16 c h -> denotes 16 d l -> Byte.to_N x = 16 * h + l -> hex_text s b ->
    hex_text (c :: d :: s) (x :: b).

(** [t] is [s] without the prefix it may have. *)
Definition unprefixed (s t : bytes) : Prop :=
  s = text "0x" ++ t \/ (s = t /\ forall t', s <> text "0x" ++ t').

(** How a byte string is usually written *)
Definition hex (b : bytes) : bytes :=
  concat (map (fun x => [nth (N.to_nat (Byte.to_N x / 16)) (text "0123456789abcdef") Byte.x00;
                         nth (N.to_nat (Byte.to_N x mod 16)) (text "0123456789abcdef") Byte.x00]) b).

(** ** Characters *)
Lemma char_spec c d : char_value c = Some d -> d < 16 -> In (c, d) hex_digits.
Proof.
  intros H Hd. destruct c; vm_compute in H; try discriminate; apply (inj Some) in H; subst d;
    try (exfalso; revert Hd; vm_compute; discriminate); vm_compute; tauto.
Qed.
Lemma digit_spec base c d : base <= 16 -> digit_value base c = Some d <-> denotes base c d.
Proof.
  intros Hb. unfold digit_value, denotes. split.
  - destruct (char_value c) as [x|] eqn:E; [|done]. destruct (N.ltb_spec x base); [|done].
    intros [= ->]. split; [|done]. apply char_spec; [done|lia].
  - intros [H Hd]. assert (char_value c = Some d) as ->.
    { vm_compute in H. repeat (destruct H as [H|H]; [injection H as <- <-; reflexivity|]). done. }
    by rewrite (proj2 (N.ltb_lt _ _)).
Qed.
Lemma existsb_In n l : existsb (N.eqb n) l = true <-> In n l.
Proof.
  rewrite existsb_exists. split; [intros (x & H & ->%N.eqb_eq); done|].
  intros H. exists n. by rewrite N.eqb_refl.
Qed.
Lemma space_spec c : is_space c = true <->
  In (Byte.to_N c) [9; 10; 11; 12; 13; 28; 29; 30; 31; 32; 133; 160].
Proof. rewrite <- existsb_In. destruct c; vm_compute; split; intros H; exact H. Qed.
Lemma ascii_space_spec c : is_ascii_space c = true <-> ascii_space c.
Proof. unfold ascii_space. rewrite <- existsb_In. destruct c; vm_compute; split; intros H; exact H. Qed.
Lemma digit_char base c d : denotes base c d ->
  is_space c = false /\ is_ascii_space c = false /\
  c <> "-"%byte /\ c <> "+"%byte /\ c <> "_"%byte /\ c <> "x"%byte /\ c <> "X"%byte.
Proof.
  intros [H _]. vm_compute in H.
  repeat (destruct H as [H|H]; [injection H as <- _; repeat split; discriminate|]). done.
Qed.

(** ** Numbers *)
Lemma value_cons base d ds : value base (d :: ds) = d * base ^ lenN ds + value base ds.
Proof. done. Qed.

(** What ends a numeral *)
Definition stops (base : N) (r : bytes) : Prop :=
  match r with [] => True | c :: _ => digit_value base c = None /\ c <> "_"%byte end.
Definition shifted (base : N) (acc : option N) (ds : list N) : N :=
  default 0 acc * base ^ lenN ds + value base ds.
Lemma shifted_cons base acc d ds :
  shifted base (Some (default 0 acc * base + d)) ds = shifted base acc (d :: ds).
Proof.
  unfold shifted. rewrite value_cons. cbn [default]. unfold lenN. cbn [List.length].
  rewrite Nat2N.inj_succ, N.pow_succ_r'. unfold default, id. lia.
Qed.
Lemma eqb_byte (a b : byte) : Byte.eqb a b = true <-> a = b.
Proof. split; [apply Byte.byte_dec_bl|apply Byte.byte_dec_lb]. Qed.
Lemma eqb_byte_false (a b : byte) : a <> b -> Byte.eqb a b = false.
Proof. intros H. apply not_true_iff_false. by rewrite eqb_byte. Qed.

Lemma scan_numeral base s ds : base <= 16 -> numeral base s ds -> forall acc under r, stops base r ->
  scan_digits base acc under (s ++ r) = Ok (shifted base acc ds, r).
Proof.
  intros Hb. induction 1 as [c d Hc|c d s ds Hc Hs IH|c d s ds Hc Hs IH]; intros acc under r Hr;
    cbn [scan_digits app]; rewrite (proj2 (digit_spec base c d Hb) Hc).
  - assert (shifted base acc [d] = default 0 acc * base + d) as ->.
    { unfold shifted, lenN. cbn [List.length value]. unfold lenN. cbn [List.length].
      rewrite N.pow_1_r, N.pow_0_r. lia. }
    destruct r as [|c' r]; cbn [scan_digits app]; [done|]. destruct Hr as [-> Hu].
    by rewrite eqb_byte_false.
  - rewrite IH by done. by rewrite shifted_cons.
  - cbn [scan_digits]. assert (digit_value base "_" = None) as ->.
    { apply eq_None_not_Some. intros [d' Hd]. apply digit_spec in Hd; [|done]. by apply digit_char in Hd as (_ & _ & _ & _ & []). }
    cbn [Byte.eqb]. rewrite (proj2 (eqb_byte _ _)) by done. rewrite IH by done. by rewrite shifted_cons.
Qed.
Lemma scan_sound base s : base <= 16 -> forall acc under v r,
  scan_digits base acc under s = Ok (v, r) ->
  stops base r /\
  ((exists body ds, numeral base body ds /\ v = shifted base acc ds /\
      (s = body ++ r \/ (under = false /\ acc <> None /\ s = "_"%byte :: body ++ r))) \/
   (under = false /\ acc = Some v /\ s = r)).
Proof.
  intros Hb. induction s as [|c s IH]; intros acc under v r; cbn [scan_digits].
  { destruct acc as [a|]; [|done]. destruct under; [done|]. intros H. injection H as <- <-.
    split; [done|]. by right. }
  destruct (digit_value base c) as [d|] eqn:Ed.
  - intros H. destruct (IH _ _ _ _ H) as [Hr [(body & ds & Hn & Hv & Hs)|(_ & Ha & ->)]]; split; try done.
    + left. apply digit_spec in Ed; [|done]. destruct Hs as [->|(_ & _ & ->)].
      * exists (c :: body), (d :: ds). split; [by constructor|]. rewrite <- shifted_cons. split; [done|by left].
      * exists (c :: "_"%byte :: body), (d :: ds). split; [by constructor|]. rewrite <- shifted_cons.
        split; [done|by left].
    + left. exists [c], [d]. apply digit_spec in Ed; [|done]. split; [by constructor|].
      split; [|by left]. apply (inj Some) in Ha. rewrite <- shifted_cons. unfold shifted, lenN.
      rewrite Ha. change (default 0 (Some v)) with v. cbn [List.length value]. rewrite N.pow_0_r. lia.
  - destruct (Byte.eqb c "_") eqn:Eu.
    + apply eqb_byte in Eu as ->. destruct acc as [a|]; [|done]. destruct under; [done|].
      intros H. destruct (IH _ _ _ _ H) as [Hr [(body & ds & Hn & Hv & Hs)|(? & _ & _)]]; [|done].
      split; [done|]. left. exists body, ds. split; [done|]. split; [done|].
      destruct Hs as [->|(? & _ & _)]; [|done]. by right.
    + destruct acc as [a|]; [|done]. destruct under; [done|]. intros H. injection H as <- <-.
      split; [|by right]. cbn. split; [done|]. intros ->. by rewrite (proj2 (eqb_byte _ _)) in Eu.
Qed.
Lemma scan_raises base s acc under c : scan_digits base acc under s = Raise c -> c = ValueError.
Proof.
  revert acc under. induction s as [|x s IH]; intros acc under; cbn [scan_digits].
  - destruct acc; [destruct under|]; congruence.
  - destruct (digit_value base x); [apply IH|]. destruct (Byte.eqb x "_").
    + destruct acc; [destruct under; [congruence|apply IH]|congruence].
    + destruct acc; [destruct under|]; congruence.
Qed.

Lemma skip_app a b : spaces a -> skip_spaces (a ++ b) = skip_spaces b.
Proof.
  induction 1 as [|c a Hc _ IH]; [done|]. cbn [app skip_spaces].
  by rewrite (proj2 (space_spec c) Hc).
Qed.
Lemma skip_stop c s : is_space c = false -> skip_spaces (c :: s) = c :: s.
Proof. intros H. cbn. by rewrite H. Qed.
Lemma skip_split s : exists a, spaces a /\ s = a ++ skip_spaces s /\
  match skip_spaces s with [] => True | c :: _ => is_space c = false end.
Proof.
  induction s as [|c s (a & IH1 & IH2 & IH3)]; [exists []; split; [constructor|done]|]. cbn [skip_spaces].
  destruct (is_space c) eqn:E.
  - exists (c :: a). split; [constructor; [by apply space_spec|done]|]. split; [cbn [app]; f_equal; exact IH2|done].
  - exists []. split; [constructor|]. done.
Qed.
Lemma numeral_head base s ds : numeral base s ds -> exists c d s', s = c :: s' /\ denotes base c d /\
  (match s' with [] => True | x :: _ => x = "_"%byte \/ exists d, denotes base x d end).
Proof.
  intros H. destruct H as [c d Hc|c d s ds Hc Hs|c d s ds Hc Hs]; exists c, d; eexists;
    (split; [reflexivity|]); (split; [done|]); [done| |by left].
  destruct Hs; right; eauto.
Qed.
Lemma spaces_stop base r : base <= 16 -> spaces r -> stops base r.
Proof.
  intros Hb H. destruct r as [|c r]; [done|]. apply Forall_cons_1 in H as [H%space_spec _]. cbn. split.
  - apply eq_None_not_Some. intros [d Hd]. apply digit_spec in Hd; [|done]. apply digit_char in Hd as [Hd _]. congruence.
  - intros ->. vm_compute in H. discriminate.
Qed.

(** Python reads a number exactly if the text is a literal. *)
Theorem C67_int base s : base = 10 \/ base = 16 ->
  (exists z, literal base s z /\ py_int base s = Ok z /\ forall z', literal base s z' -> z' = z) \/
  ((forall z, ~ literal base s z) /\ py_int base s = Raise ValueError).
Proof.
  intros Hbase. assert (Hb : base <= 16) by lia.
  assert (Complete : forall z, literal base s z -> py_int base s = Ok z).
  { intros z (before & sign & prefix & body & after & ds & -> & H1 & H2 & Hn & Hp & Hz).
    unfold py_int. rewrite skip_app by done.
    destruct (numeral_head _ _ _ Hn) as (c & d & s' & Ebody & Hc & Hs').
    pose proof (digit_char _ _ _ Hc) as (C1 & _ & C2 & C3 & C4 & C5 & C6).
    assert (Hscan : forall neg pre, scan_prefix base (pre ++ body ++ after) = body ++ after ->
      ('(v, rest) <-- scan_digits base None false (scan_prefix base (pre ++ body ++ after)) ;;
       match skip_spaces rest with
       | [] => Ok (if neg : bool then - Z.of_N v else Z.of_N v)%Z
       | _ => Raise ValueError
       end) = Ok (if neg then - Z.of_N (value base ds) else Z.of_N (value base ds))%Z).
    { intros neg pre ->. rewrite (scan_numeral base body ds) by (try done; by apply spaces_stop).
      cbn [rbind]. rewrite <- (app_nil_r after), skip_app by done. cbn [skip_spaces].
      unfold shifted. cbn [default]. by rewrite N.mul_0_l, N.add_0_l. }
    assert (Hpre : scan_prefix base (prefix ++ body ++ after) = body ++ after).
    { destruct Hp as [->|[-> Hp]].
      - rewrite Ebody. cbn [app scan_prefix]. destruct s' as [|x s'].
        + cbn [app]. destruct after as [|y after]; [done|].
          assert (y <> "x"%byte /\ y <> "X"%byte) as [Y1 Y2].
          { apply Forall_cons_1 in H2 as [H2%space_spec _]. split; intros ->; vm_compute in H2; discriminate. }
          rewrite (eqb_byte_false _ _ Y1), (eqb_byte_false _ _ Y2). by rewrite andb_false_r.
        + cbn [app]. assert (x <> "x"%byte /\ x <> "X"%byte) as [Y1 Y2].
          { destruct Hs' as [->|[d' Hd']]; [done|]. by apply digit_char in Hd' as (_ & _ & _ & _ & _ & ? & ?). }
          rewrite (eqb_byte_false _ _ Y1), (eqb_byte_false _ _ Y2). by rewrite andb_false_r.
      - destruct Hp as [<-|[<-|[<-|[<-|[]]]]]; rewrite Ebody; cbn; try done;
          by rewrite eqb_byte_false. }
    assert (Hhead : exists c1 t, prefix ++ body ++ after = c1 :: t /\ is_space c1 = false /\
      c1 <> "-"%byte /\ c1 <> "+"%byte).
    { destruct Hp as [->|[-> Hp]].
      - rewrite Ebody. cbn. eauto 10.
      - destruct Hp as [<-|[<-|[<-|[<-|[]]]]]; cbn; eexists _, _; (split; [reflexivity|]); done. }
    destruct Hhead as (c1 & t & Ht & T1 & T2 & T3).
    destruct Hz as [[[-> | ->] ->]|[-> ->]]; cbn [text list_byte_of_string app].
    - rewrite Ht, skip_stop by done. cbn [scan_sign]. rewrite !eqb_byte_false by done.
      rewrite <- Ht. apply (Hscan false), Hpre.
    - apply (Hscan false), Hpre.
    - apply (Hscan true), Hpre. }
  destruct (py_int base s) as [z|c] eqn:E.
  - left. exists z. assert (Hl : literal base s z); [|split; [done|split; [done|]]].
    2:{ intros z' Hz'%Complete. congruence. }
    unfold py_int in E. destruct (skip_split s) as (before & Hbef & Es & Hh).
    destruct (scan_sign (skip_spaces s)) as [neg t] eqn:Esign.
    destruct (scan_digits base None false (scan_prefix base t)) as [[v rest]|] eqn:Escan; [|done].
    cbn [rbind] in E. destruct (skip_split rest) as (after & Haft & Er & _).
    destruct (skip_spaces rest) as [|] eqn:Erest; [|done]. rewrite app_nil_r in Er. subst after.
    apply scan_sound in Escan as [_ [(body & ds & Hn & Hv & Ht)|(_ & ? & _)]]; [|done|done].
    destruct Ht as [Ht|(_ & ? & _)]; [|done].
    assert (Hsign : exists sign, skip_spaces s = sign ++ t /\
      ((neg = false /\ (sign = [] \/ sign = text "+")) \/ (neg = true /\ sign = text "-"))).
    { destruct (skip_spaces s) as [|c r]; cbn [scan_sign] in Esign.
      - injection Esign as <- <-. exists []. split; [done|]. left. split; [done|by left].
      - destruct (Byte.eqb c "-") eqn:E1; [|destruct (Byte.eqb c "+") eqn:E2]; injection Esign as <- <-.
        + apply eqb_byte in E1 as ->. exists (text "-"). split; [done|by right].
        + apply eqb_byte in E2 as ->. exists (text "+"). split; [done|]. left. split; [done|by right].
        + exists []. split; [done|]. left. split; [done|by left]. }
    assert (Hprefix : exists prefix, t = prefix ++ scan_prefix base t /\
      (prefix = [] \/ (base = 16 /\ In prefix [text "0x"; text "0X"; text "0x_"; text "0X_"]))).
    { destruct t as [|c [|x r]]; [exists []; split; [done|by left]..|]. cbn [scan_prefix].
      destruct ((base =? 16) && Byte.eqb c "0" && (Byte.eqb x "x" || Byte.eqb x "X")) eqn:E1;
        [|exists []; split; [done|by left]].
      apply andb_true_iff in E1 as [[->%N.eqb_eq ->%eqb_byte]%andb_true_iff E1].
      assert (x = "x"%byte \/ x = "X"%byte) as Hx.
      { apply orb_true_iff in E1 as [E1%eqb_byte|E1%eqb_byte]; [by left|by right]. }
      destruct r as [|u r].
      - destruct Hx as [-> | ->]; [exists (text "0x")|exists (text "0X")]; (split; [done|]); right;
          (split; [done|]); cbn; tauto.
      - destruct (Byte.eqb u "_") eqn:E2.
        + apply eqb_byte in E2 as ->.
          destruct Hx as [-> | ->]; [exists (text "0x_")|exists (text "0X_")]; (split; [done|]); right;
            (split; [done|]); cbn; tauto.
        + destruct Hx as [-> | ->]; [exists (text "0x")|exists (text "0X")]; (split; [done|]); right;
            (split; [done|]); cbn; tauto. }
    destruct Hsign as (sign & Hsg & Hsg'). destruct Hprefix as (prefix & Hp & Hp').
    exists before, sign, prefix, body, rest, ds. split; [rewrite Es, Hsg, Hp, Ht; done|].
    split; [done|]. split; [done|]. split; [done|]. split; [done|].
    assert (v = value base ds) as -> by (rewrite Hv; unfold shifted; cbn [default]; by rewrite N.mul_0_l, N.add_0_l).
    destruct Hsg' as [[-> Hsg']|[-> ->]]; injection E as <-; [left|right]; done.
  - right. split; [intros z Hz%Complete; congruence|]. f_equal. unfold py_int in E.
    destruct (scan_sign _) as [neg t]. destruct (scan_digits _ _ _ _) as [[v rest]|c'] eqn:Es; cbn [rbind] in E.
    + destruct (skip_spaces rest); congruence.
    + injection E as <-. by apply scan_raises in Es.
Qed.

(** ** Prefixes *)
Lemma prefix_spec s : unprefixed s (remove_hex_prefix s) /\
  forall t, unprefixed s t -> t = remove_hex_prefix s.
Proof.
  assert (H : (exists t, s = text "0x" ++ t /\ remove_hex_prefix s = t) \/
    ((forall t, s <> text "0x" ++ t) /\ remove_hex_prefix s = s)).
  { unfold remove_hex_prefix. destruct s as [|c [|x s]]; [right; split; [by intros|done]..|].
    cbn [has_hex_prefix]. destruct (Byte.eqb c "0") eqn:E1; cbn [andb].
    - apply eqb_byte in E1 as ->. destruct (Byte.eqb x "x") eqn:E2.
      + apply eqb_byte in E2 as ->. left. exists s. split; [done|]. by destruct s.
      + right. split; [|done]. intros t [= -> _]. vm_compute in E2. discriminate.
    - right. split; [|done]. intros t [= -> _]. vm_compute in E1. discriminate. }
  unfold unprefixed. destruct H as [(t & -> & ->)|[H ->]].
  - split; [by left|]. intros t' [E|[_ H]]; [by apply app_inv_head in E|]. by destruct (H t).
  - split; [by right|]. intros t [E|[E _]]; [by destruct (H t)|done].
Qed.

(** ** Decoders of numbers *)
(** With its prefix removed the text is a literal of the number, or the
    decoder raises: ValueError if there is no literal, OverflowError if the
    number does not fit. *)
Definition decodes (decoder : bytes -> result N) (bound : option N) (s : bytes) : Prop :=
  exists t, unprefixed s t /\
  ((exists z n, literal 16 t z /\ z = Z.of_N n /\ (forall b, bound = Some b -> n < b) /\ decoder s = Ok n) \/
   (exists z, literal 16 t z /\ (z < 0 \/ exists b, bound = Some b /\ Z.of_N b <= z)%Z /\
      decoder s = Raise OverflowError) \/
   ((forall z, ~ literal 16 t z) /\ decoder s = Raise ValueError)).
Theorem C67_numbers s :
  decodes hex_to_uint None s /\ decodes hex_to_u8 (Some (2 ^ 8)) s /\
  decodes hex_to_u64 (Some (2 ^ 64)) s /\ decodes hex_to_u256 (Some (2 ^ 256)) s.
Proof.
  assert (Hbounded : forall ceil, decodes (fun s => z <-- py_int 16 (remove_hex_prefix s) ;; to_bounded ceil z)
    (Some ceil) s).
  { intros ceil. exists (remove_hex_prefix s). split; [apply prefix_spec|].
    destruct (C67_int 16 (remove_hex_prefix s)) as [(z & Hl & -> & _)|[Hl ->]]; [by right| |by right; right].
    cbn [rbind]. unfold to_bounded, to_uint. destruct (Z.ltb_spec z 0); cbn [rbind].
    - right. left. exists z. split; [done|]. split; [by left|done].
    - destruct (N.ltb_spec (Z.to_N z) ceil).
      + left. exists z, (Z.to_N z). split; [done|]. split; [by rewrite Z2N.id|]. split; [|done]. by intros b [= <-].
      + right. left. exists z. split; [done|]. split; [|done]. right. exists ceil. split; [done|].
        clear -H H0. lia. }
  split; [|split; [apply Hbounded|split; apply Hbounded]].
  exists (remove_hex_prefix s). split; [apply prefix_spec|]. unfold hex_to_uint.
  destruct (C67_int 16 (remove_hex_prefix s)) as [(z & Hl & -> & _)|[Hl ->]]; [by right| |by right; right].
  cbn [rbind]. unfold to_uint. destruct (Z.ltb_spec z 0).
  - right. left. exists z. split; [done|]. split; [by left|done].
  - left. exists z, (Z.to_N z). split; [done|]. split; [by rewrite Z2N.id|]. split; [done|done].
Qed.
Lemma digits_numeral base s ds : ds <> [] -> digits base s ds -> numeral base s ds.
Proof.
  intros Hne H. induction H as [|c d s ds Hc H IH]; [done|].
  destruct ds as [|d' ds].
  - apply Forall2_nil_inv_r in H as ->. by constructor.
  - constructor; [done|]. by apply IH.
Qed.
Lemma digits_literal base s ds : ds <> [] -> digits base s ds ->
  literal base s (Z.of_N (value base ds)).
Proof.
  intros Hne H. exists [], [], [], s, [], ds. rewrite app_nil_r. split; [done|].
  split; [constructor|]. split; [constructor|]. split; [by apply digits_numeral|]. split; [by left|].
  left. split; [by left|done].
Qed.
Lemma digits_no_prefix s ds t : digits 16 s ds -> s <> text "0x" ++ t.
Proof.
  intros H ->. apply Forall2_cons_inv_l in H as (d & ds' & _ & H & _).
  apply Forall2_cons_inv_l in H as (d' & ds'' & H & _). by apply digit_char in H as (_ & _ & _ & _ & _ & [] & _).
Qed.
(** Plain digits, with or without the prefix, are read as the number they
    denote. *)
Theorem C67_digits s ds : digits 16 s ds -> ds <> [] ->
  forall t, t = s \/ t = text "0x" ++ s ->
  hex_to_uint t = Ok (value 16 ds) /\
  (value 16 ds < 2 ^ 256 -> hex_to_u256 t = Ok (value 16 ds)) /\
  (2 ^ 256 <= value 16 ds -> hex_to_u256 t = Raise OverflowError).
Proof.
  intros Hs Hne t Ht.
  assert (Hu : unprefixed t s).
  { destruct Ht as [-> | ->]; [right|by left]. split; [done|]. intros t'. by eapply digits_no_prefix. }
  destruct (prefix_spec t) as [_ Hp]. apply Hp in Hu. unfold hex_to_uint, hex_to_u256. rewrite <- Hu.
  destruct (C67_int 16 s) as [(z & _ & -> & Huniq)|[H _]]; [by right| |].
  2:{ by destruct (H _ (digits_literal 16 s ds Hne Hs)). }
  rewrite <- (Huniq _ (digits_literal 16 s ds Hne Hs)). cbn [rbind]. unfold to_bounded, to_uint.
  rewrite (proj2 (Z.ltb_ge _ _)) by (clear; lia). rewrite N2Z.id. cbn [rbind]. unfold U256_CEIL.
  split; [done|]. split; intros H; [by rewrite (proj2 (N.ltb_lt _ _))|by rewrite (proj2 (N.ltb_ge _ _))].
Qed.

(** ** Decoders of byte strings *)
Lemma denotes_16 base c d : denotes base c d -> d < 16.
Proof.
  intros [H _]. vm_compute in H. repeat (destruct H as [H|H]; [injection H as _ <-; reflexivity|]). done.
Qed.
Lemma hex_byte c h d l x : denotes 16 c h -> denotes 16 d l ->
  Byte.to_N x = 16 * h + l <-> x = byte_of_N (16 * h + l).
Proof.
  intros H1%denotes_16 H2%denotes_16. split.
  - intros <-. symmetry. apply byte_to_N_of_N.
  - intros ->. apply byte_of_N_to_N. lia.
Qed.
Lemma fromhex_spec n : forall s, (length s <= n)%nat ->
  (exists b, hex_text s b /\ fromhex s = Ok b /\ forall b', hex_text s b' -> b' = b) \/
  ((forall b, ~ hex_text s b) /\ fromhex s = Raise ValueError).
Proof.
  induction n as [|n IH]; intros s Hn.
  { destruct s; [|cbn in Hn; lia]. left. exists []. split; [constructor|]. split; [done|].
    intros b' H. by inversion H. }
  destruct s as [|c r].
  { left. exists []. split; [constructor|]. split; [done|]. intros b' H. by inversion H. }
  cbn [fromhex]. cbn [List.length] in Hn. destruct (is_ascii_space c) eqn:Esp.
  - destruct (IH r ltac:(lia)) as [(b & Hb & -> & Hu)|[Hb ->]]; [left|right].
    + exists b. split; [constructor; [by apply ascii_space_spec|done]|]. split; [done|].
      intros b' H. inversion H as [|? ? ? _ H'|? ? ? ? ? ? ? H']; subst; [by apply Hu|].
      apply digit_char in H' as (_ & H' & _). congruence.
    + split; [|done]. intros b H. inversion H as [|? ? ? _ H'|? ? ? ? ? ? ? H']; subst; [by apply (Hb b)|].
      apply digit_char in H' as (_ & H' & _). congruence.
  - assert (Hinv : forall b, hex_text (c :: r) b -> exists d h l x s' b', r = d :: s' /\ b = x :: b' /\
      denotes 16 c h /\ denotes 16 d l /\ Byte.to_N x = 16 * h + l /\ hex_text s' b').
    { intros b H. inversion H as [|? ? ? H' _|? h d l x s' b' H1 H2 H3 H4]; subst.
      - apply ascii_space_spec in H'. congruence.
      - by exists d, h, l, x, s', b'. }
    destruct (digit_value 16 c) as [h|] eqn:Ec.
    2:{ right. split; [|done]. intros b H. apply Hinv in H as (d & h & l & x & s' & b' & _ & _ & H & _).
        apply digit_spec in H; [congruence|done]. }
    destruct r as [|d r'].
    { right. split; [|done]. intros b H. by apply Hinv in H as (? & ? & ? & ? & ? & ? & ? & _). }
    destruct (digit_value 16 d) as [l|] eqn:Ed.
    2:{ right. split; [|done]. intros b H.
        apply Hinv in H as (d' & h' & l & x & s' & b' & E & _ & _ & H & _). injection E as <- <-.
        apply digit_spec in H; [congruence|done]. }
    assert (Hc := proj1 (digit_spec 16 c h ltac:(lia)) Ec).
    assert (Hd := proj1 (digit_spec 16 d l ltac:(lia)) Ed).
    assert (Hdet : forall c h h', digit_value 16 c = Some h -> denotes 16 c h' -> h' = h).
    { intros c' h1 h2 E H%digit_spec; [congruence|done]. }
    cbn [List.length] in Hn. destruct (IH r' ltac:(lia)) as [(b & Hb & -> & Hu)|[Hb ->]]; [left|right]; cbn [rbind].
    + exists (byte_of_N (16 * h + l) :: b). split; [|split; [done|]].
      * apply (ht_byte c h d l); try done. by apply (hex_byte c h d l).
      * intros b0 H. apply Hinv in H as (d' & h' & l' & x & s' & b' & E & -> & H1 & H2 & H3 & H4).
        injection E as <- <-. rewrite (Hdet _ _ _ Ec H1), (Hdet _ _ _ Ed H2) in H3.
        apply (hex_byte c h d l) in H3; [|done..]. by rewrite H3, (Hu _ H4).
    + split; [|done]. intros b0 H. apply Hinv in H as (d' & h' & l' & x & s' & b' & E & -> & _ & _ & _ & H4).
      injection E as <- <-. by apply (Hb b').
Qed.
(** A text is read as a byte string exactly if, with its prefix removed, it
    has two digits per byte. *)
Theorem C67_bytes s : exists t, unprefixed s t /\
  ((exists b, hex_text t b /\ hex_to_bytes s = Ok b /\ forall b', hex_text t b' -> b' = b) \/
   ((forall b, ~ hex_text t b) /\ hex_to_bytes s = Raise ValueError)).
Proof.
  exists (remove_hex_prefix s). split; [apply prefix_spec|].
  by apply (fromhex_spec (length (remove_hex_prefix s))).
Qed.
Lemma hex_text_hex b : hex_text (hex b) b.
Proof.
  assert (Hn : forall n, n < 16 -> denotes 16 (nth (N.to_nat n) (text "0123456789abcdef") Byte.x00) n).
  { intros n Hn. assert (n = 0 \/ n = 1 \/ n = 2 \/ n = 3 \/ n = 4 \/ n = 5 \/ n = 6 \/ n = 7 \/ n = 8 \/
      n = 9 \/ n = 10 \/ n = 11 \/ n = 12 \/ n = 13 \/ n = 14 \/ n = 15) as H by lia.
    repeat (destruct H as [->|H]; [split; [vm_compute; tauto|done]|]). subst. split; [vm_compute; tauto|done]. }
  induction b as [|x b IH]; [constructor|].
  change (hex_text (nth (N.to_nat (Byte.to_N x / 16)) (text "0123456789abcdef") Byte.x00 ::
    nth (N.to_nat (Byte.to_N x mod 16)) (text "0123456789abcdef") Byte.x00 :: hex b) (x :: b)).
  assert (Hx : Byte.to_N x < 256) by (pose proof (Byte.to_N_bounded x); lia).
  apply (ht_byte _ (Byte.to_N x / 16) _ (Byte.to_N x mod 16)); [apply Hn|apply Hn| |done].
  - apply N.div_lt_upper_bound; lia.
  - by apply N.mod_lt.
  - by apply N.div_mod'.
Qed.
Lemma no_prefix_hex b t : hex b <> text "0x" ++ t.
Proof.
  intros E. pose proof (hex_text_hex b) as H. rewrite E in H. cbn in H.
  inversion H as [|? ? ? H1 H2|? ? ? ? ? ? ? H1 H2]; subst.
  - vm_compute in H1. repeat (destruct H1 as [H1|H1]; [discriminate|]). done.
  - by apply digit_char in H2 as (_ & _ & _ & _ & _ & [] & _).
Qed.
(** Every byte string is read back from how it is written. *)
Theorem C67_round_trip b :
  hex_to_bytes (hex b) = Ok b /\ hex_to_bytes (text "0x" ++ hex b) = Ok b /\
  (lenN b = 32 -> hex_to_hash (text "0x" ++ hex b) = Ok b /\ hex_to_root (text "0x" ++ hex b) = Ok b /\
     hex_to_bytes32 (text "0x" ++ hex b) = Ok b) /\
  (lenN b <> 32 -> hex_to_hash (text "0x" ++ hex b) = Raise ValueError).
Proof.
  assert (remove_hex_prefix (hex b) = hex b /\ remove_hex_prefix (text "0x" ++ hex b) = hex b) as [R1 R2].
  { split; symmetry; apply prefix_spec; [right; split; [done|apply no_prefix_hex]|by left]. }
  assert (Hf : fromhex (hex b) = Ok b).
  { destruct (fromhex_spec (length (hex b)) (hex b)) as [(b' & _ & -> & Hu)|[H _]]; [done| |].
    - by rewrite (Hu b (hex_text_hex b)).
    - by destruct (H b (hex_text_hex b)). }
  unfold hex_to_bytes, hex_to_hash, hex_to_root, hex_to_bytes32. rewrite R1, R2, Hf. cbn [rbind].
  unfold to_fixed_bytes. split; [done|]. split; [done|]. split; intros H.
  - assert (Hl : lenN (hex b) = 2 * lenN b).
    { clear. unfold lenN. induction b as [|x b IH]; [done|].
      change (hex (x :: b)) with (nth (N.to_nat (Byte.to_N x / 16)) (text "0123456789abcdef") Byte.x00 ::
        nth (N.to_nat (Byte.to_N x mod 16)) (text "0123456789abcdef") Byte.x00 :: hex b).
      cbn [List.length]. lia. }
    assert (rjust 64 (hex b) = hex b) as -> by (unfold rjust; by rewrite Hl, H).
    rewrite Hf. cbn [rbind]. by rewrite H.
  - by rewrite (proj2 (N.eqb_neq _ _)).
Qed.

(** ** Padded byte strings *)
Lemma value_app base a b : value base (a ++ b) = value base a * base ^ lenN b + value base b.
Proof.
  induction a as [|d a IH]; [done|]. cbn [app value]. rewrite IH.
  replace (lenN (a ++ b)) with (lenN a + lenN b) by (unfold lenN; rewrite app_length; lia).
  rewrite N.pow_add_r. lia.
Qed.
Lemma value_zeros base n : value base (repeat 0 n) = 0.
Proof. induction n as [|n IH]; [done|]. cbn [repeat value]. rewrite IH. lia. Qed.
Lemma value_lt ds : Forall (fun d => d < 16) ds -> value 16 ds < 16 ^ lenN ds.
Proof.
  induction 1 as [|d ds Hd _ IH]; [done|]. cbn [value].
  replace (lenN (d :: ds)) with (1 + lenN ds) by (unfold lenN; cbn [List.length]; lia).
  rewrite N.pow_add_r, N.pow_1_r. revert IH. generalize (16 ^ lenN ds). intros p IH. clear -Hd IH.
  assert (d * p <= 15 * p) by (apply N.mul_le_mono_r; lia). lia.
Qed.
Lemma fromhex_digits n : forall s ds, length ds = (2 * n)%nat -> digits 16 s ds ->
  exists b, fromhex s = Ok b /\ lenN b = N.of_nat n /\ from_be_bytes b = value 16 ds.
Proof.
  induction n as [|n IH]; intros s ds Hl Hs.
  { destruct ds; [|done]. apply Forall2_nil_inv_r in Hs as ->. by exists []. }
  destruct ds as [|h [|l ds]]; [done|cbn in Hl; lia|].
  apply Forall2_cons_inv_r in Hs as (c & s1 & Hc & Hs & ->).
  apply Forall2_cons_inv_r in Hs as (d & s2 & Hd & Hs & ->).
  destruct (IH s2 ds) as (b & Hb & Hlen & Hv); [cbn in Hl; lia|done|].
  cbn [fromhex]. destruct (digit_char _ _ _ Hc) as (_ & -> & _).
  rewrite (proj2 (digit_spec 16 c h ltac:(lia)) Hc), (proj2 (digit_spec 16 d l ltac:(lia)) Hd), Hb.
  cbn [rbind]. eexists. split; [reflexivity|]. split; [unfold lenN in *; cbn [List.length]; lia|].
  pose proof (denotes_16 _ _ _ Hc). pose proof (denotes_16 _ _ _ Hd).
  rewrite from_be_cons, Hv, byte_of_N_to_N by lia. cbn [value].
  replace (lenN (l :: ds)) with (1 + lenN ds) by (unfold lenN; cbn [List.length]; lia).
  rewrite N.pow_add_r, N.pow_1_r, Hlen.
  replace (lenN ds) with (2 * N.of_nat n) by (unfold lenN; cbn in Hl; lia).
  rewrite N.pow_mul_r. change (16 ^ 2) with 256. lia.
Qed.
Lemma rjust_digits n s ds : digits 16 s ds -> lenN ds <= n ->
  exists ds', digits 16 (rjust n s) ds' /\ lenN ds' = n /\ value 16 ds' = value 16 ds.
Proof.
  intros Hs Hn. pose proof (Forall2_length _ _ _ Hs) as Hl. unfold rjust.
  exists (repeat 0 (N.to_nat (n - lenN s)) ++ ds). split; [|split].
  - apply Forall2_app; [|done]. generalize (N.to_nat (n - lenN s)). intros k.
    induction k; constructor; [|done]. split; [by left|done].
  - unfold lenN in *. rewrite app_length, repeat_length. lia.
  - rewrite value_app, value_zeros. lia.
Qed.
(** Fewer digits than fit are padded on the left: the byte string is that of
    the number, as wide as asked for. More digits are an error. *)
Theorem C67_padded s ds : digits 16 s ds -> forall t, t = s \/ t = text "0x" ++ s ->
  (lenN ds <= 16 -> hex_to_bytes8 t = Ok (to_be_fixed 8 (value 16 ds))) /\
  (lenN ds <= 64 -> hex_to_bytes32 t = Ok (to_be_fixed 32 (value 16 ds))) /\
  (lenN ds <= 512 -> hex_to_bytes256 t = Ok (to_be_fixed 256 (value 16 ds))) /\
  (lenN ds <= 40 -> hex_to_address t = Ok (value 16 ds)) /\
  (16 < lenN ds -> hex_to_bytes8 t = Raise ValueError) /\
  (64 < lenN ds -> hex_to_bytes32 t = Raise ValueError) /\
  (512 < lenN ds -> hex_to_bytes256 t = Raise ValueError) /\
  (40 < lenN ds -> hex_to_address t = Raise ValueError).
Proof.
  intros Hs t Ht.
  assert (Hr : remove_hex_prefix t = s).
  { symmetry. apply prefix_spec. destruct Ht as [-> | ->]; [right|by left]. split; [done|].
    intros t'. by eapply digits_no_prefix. }
  assert (Hfit : forall n, lenN ds <= 2 * N.of_nat n -> exists b, fromhex (rjust (2 * N.of_nat n) s) = Ok b /\
    lenN b = N.of_nat n /\ b = to_be_fixed n (value 16 ds) /\ from_be_bytes b = value 16 ds).
  { intros n Hn. destruct (rjust_digits _ s ds Hs Hn) as (ds' & H1 & H2 & H3).
    destruct (fromhex_digits n (rjust (2 * N.of_nat n) s) ds') as (b & E & L & V); [unfold lenN in H2; lia|done|].
    exists b. rewrite H3 in V. split_and!; try done. rewrite <- V.
    assert (n = length b) as -> by (unfold lenN in L; lia). symmetry. apply to_from_be_fixed. }
  assert (Hlong : forall n, 2 * N.of_nat n < lenN ds ->
    (b <-- fromhex (rjust (2 * N.of_nat n) s) ;; to_fixed_bytes (N.of_nat n) b) = Raise ValueError).
  { intros n Hn. pose proof (Forall2_length _ _ _ Hs) as Hl. unfold rjust.
    replace (N.to_nat (2 * N.of_nat n - lenN s)) with 0%nat by (unfold lenN in *; lia). cbn [repeat app].
    destruct (fromhex_spec (length s) s) as [(b & Hb & -> & _)|[_ ->]]; [done| |done]. cbn [rbind].
    unfold to_fixed_bytes. rewrite (proj2 (N.eqb_neq _ _)); [done|].
    assert (Hlb : forall s ds b, digits 16 s ds -> hex_text s b -> length ds = (2 * length b)%nat).
    { clear. intros s ds b Hd H. revert ds Hd.
      induction H as [|c s b Hc _ IH|c h d l x s b Hc Hd Hx _ IH]; intros ds Hds.
      - by apply Forall2_nil_inv_l in Hds as ->.
      - apply Forall2_cons_inv_l in Hds as (? & ? & H & _). apply digit_char in H as (_ & H & _).
        apply ascii_space_spec in Hc. congruence.
      - apply Forall2_cons_inv_l in Hds as (? & ? & _ & Hds & ->).
        apply Forall2_cons_inv_l in Hds as (? & ds' & _ & Hds & ->). specialize (IH _ Hds). cbn. lia. }
    specialize (Hlb _ _ _ Hs Hb). unfold lenN in *. lia. }
  unfold hex_to_bytes8, hex_to_bytes32, hex_to_bytes256, hex_to_address. rewrite Hr.
  split_and!; intros H.
  - destruct (Hfit 8%nat H) as (b & E & L & -> & _). change 16 with (2 * N.of_nat 8). rewrite E. cbn [rbind].
    unfold to_fixed_bytes. by rewrite L.
  - destruct (Hfit 32%nat H) as (b & E & L & -> & _). change 64 with (2 * N.of_nat 32). rewrite E. cbn [rbind].
    unfold to_fixed_bytes. by rewrite L.
  - destruct (Hfit 256%nat H) as (b & E & L & -> & _). change 512 with (2 * N.of_nat 256). rewrite E.
    cbn [rbind]. unfold to_fixed_bytes. by rewrite L.
  - destruct (Hfit 20%nat H) as (b & E & L & _ & V). change 40 with (2 * N.of_nat 20). rewrite E.
    cbn [rbind]. unfold to_fixed_bytes. rewrite L. change (N.of_nat 20 =? 20) with true. cbn [rbind]. by rewrite V.
  - apply (Hlong 8%nat H).
  - apply (Hlong 32%nat H).
  - apply (Hlong 256%nat H).
  - specialize (Hlong 20%nat H). change (2 * N.of_nat 20) with 40 in Hlong.
    destruct (fromhex (rjust 40 s)) as [b|]; cbn [rbind] in *; [|by injection Hlong as ->].
    change (N.of_nat 20) with 20 in Hlong. by rewrite Hlong.
Qed.

(** ** Reading and nothing else *)
Definition hex_number (s : bytes) (n : N) : Prop := exists t, unprefixed s t /\ literal 16 t (Z.of_N n).
Definition hex_bytes (s b : bytes) : Prop := exists t, unprefixed s t /\ hex_text t b.
(** [n] bytes, the digits missing at the front being zeros *)
Definition hex_padded (n : N) (s b : bytes) : Prop := exists t, unprefixed s t /\
  hex_text (repeat "0"%byte (N.to_nat (2 * n - lenN t)) ++ t) b /\ lenN b = n.

Lemma unprefixed_unique s t t' : unprefixed s t -> unprefixed s t' -> t = t'.
Proof. intros H H'. destruct (prefix_spec s) as [_ Hp]. by rewrite (Hp _ H), (Hp _ H'). Qed.
Lemma literal_unique base s z z' : base = 10 \/ base = 16 -> literal base s z -> literal base s z' -> z = z'.
Proof.
  intros Hb H H'. destruct (C67_int base s Hb) as [(z0 & _ & _ & Hu)|[Hn _]]; [|by destruct (Hn z)].
  by rewrite (Hu _ H), (Hu _ H').
Qed.
Lemma hex_text_unique s b b' : hex_text s b -> hex_text s b' -> b = b'.
Proof.
  intros H H'. destruct (fromhex_spec (length s) s) as [(b0 & _ & _ & Hu)|[Hn _]]; [done| |by destruct (Hn b)].
  by rewrite (Hu _ H), (Hu _ H').
Qed.
Lemma fromhex_iff s b : fromhex s = Ok b <-> hex_text s b.
Proof.
  destruct (fromhex_spec (length s) s) as [(b0 & Hb & -> & Hu)|[Hn ->]]; [done| |].
  - split; [by intros [= <-]|]. intros H. by rewrite (Hu _ H).
  - split; [done|]. intros H. by destruct (Hn b).
Qed.
Lemma decodes_iff d bound s n : decodes d bound s ->
  d s = Ok n <-> hex_number s n /\ forall b, bound = Some b -> n < b.
Proof.
  intros (t & Ht & H).
  assert (Hnum : forall n', hex_number s n' -> literal 16 t (Z.of_N n')).
  { intros n' (t' & Ht' & H'). by rewrite (unprefixed_unique _ _ _ Ht Ht'). }
  destruct H as [(z & n' & Hl & -> & Hb & ->)|[(z & Hl & Hz & ->)|[Hl ->]]].
  - split.
    + intros [= <-]. split; [by exists t|done].
    + intros [H%Hnum _]. f_equal. apply N2Z.inj. eapply literal_unique; eauto.
  - split; [done|]. intros [H%Hnum Hb].
    rewrite (literal_unique _ _ _ _ (or_intror eq_refl) Hl H) in Hz.
    destruct Hz as [Hz|(b & -> & Hz)]; [clear -Hz; lia|]. specialize (Hb b eq_refl). clear -Hz Hb. lia.
  - split; [done|]. intros [H%Hnum _]. by destruct (Hl _ H).
Qed.
Lemma padded_iff n s b :
  (b <-- fromhex (rjust (2 * n) (remove_hex_prefix s)) ;; to_fixed_bytes n b) = Ok b <-> hex_padded n s b.
Proof.
  destruct (prefix_spec s) as [Hp Hu]. unfold hex_padded, rjust.
  destruct (fromhex _) as [b'|e] eqn:E; cbn [rbind].
  - apply fromhex_iff in E. unfold to_fixed_bytes. destruct (N.eqb_spec (lenN b') n); split.
    + intros [= <-]. by exists (remove_hex_prefix s).
    + intros (t & Ht & H & _). rewrite (Hu _ Ht) in H. f_equal. by eapply hex_text_unique.
    + done.
    + intros (t & Ht & H & Hl). rewrite (Hu _ Ht) in H.
      rewrite (hex_text_unique _ _ _ E H) in n0. done.
  - split; [done|]. intros (t & Ht & H & _). rewrite (Hu _ Ht) in H. apply fromhex_iff in H.
    change "0"%byte with Byte.x30 in H. congruence.
Qed.
Theorem C67_reads s :
  (forall n, hex_to_uint s = Ok n <-> hex_number s n) /\
  (forall n, hex_to_u8 s = Ok n <-> hex_number s n /\ n < 2 ^ 8) /\
  (forall n, hex_to_u64 s = Ok n <-> hex_number s n /\ n < 2 ^ 64) /\
  (forall n, hex_to_u256 s = Ok n <-> hex_number s n /\ n < 2 ^ 256) /\
  (forall b, hex_to_bytes s = Ok b <-> hex_bytes s b) /\
  (forall b, hex_to_bytes8 s = Ok b <-> hex_padded 8 s b) /\
  (forall b, hex_to_bytes32 s = Ok b <-> hex_padded 32 s b) /\
  (forall b, hex_to_bytes256 s = Ok b <-> hex_padded 256 s b) /\
  (forall b, hex_to_hash s = Ok b <-> hex_bytes s b /\ lenN b = 32) /\
  (forall b, hex_to_root s = Ok b <-> hex_bytes s b /\ lenN b = 32) /\
  (forall a, hex_to_address s = Ok a <-> exists b, hex_padded 20 s b /\ a = from_be_bytes b).
Proof.
  destruct (C67_numbers s) as (D1 & D2 & D3 & D4).
  assert (Hb : forall b, hex_to_bytes s = Ok b <-> hex_bytes s b).
  { intros b. destruct (prefix_spec s) as [Hp Hu]. unfold hex_to_bytes. rewrite fromhex_iff. split.
    - intros H. by exists (remove_hex_prefix s).
    - intros (t & Ht & H). by rewrite <- (Hu _ Ht). }
  assert (Hh : forall b, (b <-- hex_to_bytes s ;; to_fixed_bytes 32 b) = Ok b <-> hex_bytes s b /\ lenN b = 32).
  { intros b. rewrite <- Hb. destruct (hex_to_bytes s) as [b'|]; cbn [rbind]; [|by split; [|intros [? _]]].
    unfold to_fixed_bytes. destruct (N.eqb_spec (lenN b') 32); split.
    - by intros [= <-].
    - by intros [[= <-] _].
    - done.
    - by intros [[= <-] ?]. }
  split; [|split; [|split; [|split; [|split; [done|split; [|split; [|split; [|split; [done|split; [done|]]]]]]]]]].
  - intros n. rewrite (decodes_iff _ _ _ _ D1). split; [by intros [? _]|]. by split.
  - intros n. rewrite (decodes_iff _ _ _ _ D2). split; intros [H1 H2]; (split; [done|]); [by apply H2|]. by intros b [= <-].
  - intros n. rewrite (decodes_iff _ _ _ _ D3). split; intros [H1 H2]; (split; [done|]); [by apply H2|]. by intros b [= <-].
  - intros n. rewrite (decodes_iff _ _ _ _ D4). split; intros [H1 H2]; (split; [done|]); [by apply H2|]. by intros b [= <-].
  - intros b. apply (padded_iff 8).
  - intros b. apply (padded_iff 32).
  - intros b. apply (padded_iff 256).
  - intros a. unfold hex_to_address. change 40 with (2 * 20).
    assert (H : forall b, (b <-- fromhex (rjust (2 * 20) (remove_hex_prefix s)) ;; to_fixed_bytes 20 b) = Ok b <->
      hex_padded 20 s b) by (intros b; apply padded_iff).
    destruct (fromhex _) as [b'|]; cbn [rbind] in *.
    + destruct (to_fixed_bytes 20 b') as [b''|]; cbn [rbind].
      * split; [intros [= <-]; exists b''; split; [by apply H|done]|]. intros (b & Hp & ->).
        apply H in Hp. by injection Hp as <-.
      * split; [done|]. intros (b & Hp & ->). by apply H in Hp.
    + split; [done|]. intros (b & Hp & ->). by apply H in Hp.
Qed.
(** No text makes a decoder raise another exception. *)
Definition text_error {A} (r : result A) : Prop :=
  match r with Ok _ => True | Raise e => e = ValueError \/ e = OverflowError end.
Lemma text_error_bind {A B} (m : result A) (f : A -> result B) :
  text_error m -> (forall a, text_error (f a)) -> text_error (x <-- m ;; f x).
Proof. destruct m; cbn [rbind]; auto. Qed.
Lemma text_error_int base s : base = 10 \/ base = 16 -> text_error (py_int base s).
Proof. intros H. destruct (C67_int base s H) as [(z & _ & -> & _)|[_ ->]]; cbn; auto. Qed.
Lemma text_error_bounded n z : text_error (to_bounded n z).
Proof. unfold to_bounded, to_uint. destruct (_ <? _)%Z; cbn [rbind]; [by right|]. destruct (_ <? _); cbn; auto. Qed.
Lemma text_error_fromhex s : text_error (fromhex s).
Proof. destruct (fromhex_spec (length s) s) as [(b & _ & -> & _)|[_ ->]]; cbn; auto. Qed.
Lemma text_error_fixed n b : text_error (to_fixed_bytes n b).
Proof. unfold to_fixed_bytes. destruct (_ =? _); cbn; auto. Qed.
Theorem C67_errors s :
  text_error (hex_to_uint s) /\ text_error (hex_to_u8 s) /\ text_error (hex_to_u64 s) /\
  text_error (hex_to_u256 s) /\ text_error (hex_to_bytes s) /\ text_error (hex_to_bytes8 s) /\
  text_error (hex_to_bytes32 s) /\ text_error (hex_to_bytes256 s) /\ text_error (hex_to_hash s) /\
  text_error (hex_to_root s) /\ text_error (hex_to_address s).
Proof.
  split_and!; try apply text_error_bind; auto using text_error_bounded, text_error_fixed, text_error_fromhex.
  - by apply text_error_int; right.
  - intros z. unfold to_uint. destruct (_ <? _)%Z; cbn; auto.
  - by apply text_error_int; right.
  - by apply text_error_int; right.
  - by apply text_error_int; right.
  - apply text_error_fromhex.
  - intros b. apply text_error_bind; [apply text_error_fixed|done].
Qed.

(** ** Examples *)
Example C67_nonvacuous :
  digits 16 (text "0fF") [0; 15; 15] /\ value 16 [0; 15; 15] = 255 /\
  hex_to_uint (text "0x0fF") = Ok 255 /\ hex_to_u8 (text "0x100") = Raise OverflowError /\
  hex_to_bytes (text "0x0fF") = Raise ValueError /\
  hex_to_bytes8 (text "0x42") = Ok (to_be_fixed 8 0x42) /\
  hex_to_bytes (text "0xde ad") = Ok [Byte.xde; Byte.xad] /\
  hex_to_address (text "0x1") = Ok 1 /\
  hex_to_uint (text " -0x1") = Raise OverflowError /\
  (* accepted although hardly meant: a sign, an underscore, a second prefix *)
  hex_to_uint (text "0x+0x_1_0") = Ok 16 /\ hex_to_uint (text "0x1__0") = Raise ValueError.
Proof.
  split; [repeat constructor; vm_compute; tauto|]. vm_compute. repeat split.
Qed.

Definition PropHex_theorems :=
  (@C67_int, @C67_numbers, @C67_digits, @C67_bytes, @C67_round_trip, @C67_padded,
   @C67_reads, @C67_errors).
Print Assumptions PropHex_theorems.
