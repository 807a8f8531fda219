(** * ForkProofs: lemmas on the computations of [Fork.v]. *)
From Verif Require Import Base State Rlp Vm Instructions Precompiles Interpreter StateSpec StateProofs
  NumericProofs Trie Bloom Transactions Blocks Requests Fork.
From Coq Require Import ZifyBool ZifyN ZifyNat.
Ltac Zify.zify_post_hook ::= idtac.

(** ** Sequencing *)
Lemma obind_inv {A B} (o : outcome A) (f : A -> outcome B) b :
  obind o f = Done b -> exists a, o = Done a /\ f a = Done b.
Proof. destruct o as [a|]; [|done]. intros H. by exists a. Qed.
Lemma sbind_inv {A B} (m : sm A) (f : A -> sm B) s b s' :
  sbind m f s = (Done b, s') -> exists a s1, m s = (Done a, s1) /\ f a s1 = (Done b, s').
Proof. unfold sbind. destruct (m s) as [[a|e] s1]; [|done]. intros H. by exists a, s1. Qed.
Lemma sret_inv {A} (a b : A) s s' : sret a s = (Done b, s') -> a = b /\ s' = s.
Proof. by intros [= -> ->]. Qed.
Lemma lift_inv {A} (o : outcome A) s b s' : lift o s = (Done b, s') -> o = Done b /\ s' = s.
Proof. by intros [= -> ->]. Qed.
Lemma gets_inv {A} (f : state -> A) s b s' : gets f s = (Done b, s') -> b = f s /\ s' = s.
Proof. by intros [= -> ->]. Qed.
Lemma modifies_inv f s b s' : modifies f s = (Done b, s') -> f s = Ok s'.
Proof. unfold modifies. destruct (f s) as [s1|]; [|done]. by intros [= <- ->]. Qed.
Lemma check_inv b x : check b = Done x -> b = true.
Proof. by destruct b. Qed.
Lemma usub_inv a b c : usub a b = Done c -> b <= a /\ c = a - b.
Proof. unfold usub. destruct (N.ltb_spec a b); [done|]. by intros [= <-]. Qed.
Lemma u64_inv a c : u64 a = Done c -> a < 2 ^ 64 /\ c = a.
Proof. unfold u64. destruct (N.ltb_spec a (2 ^ 64)); [|done]. by intros [= <-]. Qed.
Lemma u256_inv a c : u256 a = Done c -> a < 2 ^ 256 /\ c = a.
Proof.
  unfold u256, to_u256. change (2 ^ 256) with U256_CEIL. destruct (N.ltb_spec a U256_CEIL); [|done].
  by intros [= <-].
Qed.
Lemma usub_le a b : b <= a -> usub a b = Done (a - b).
Proof. intros H. unfold usub. destruct (N.ltb_spec a b); [lia|done]. Qed.
Lemma u64_lt a : a < 2 ^ 64 -> u64 a = Done a.
Proof. intros H. unfold u64. destruct (N.ltb_spec a (2 ^ 64)); [done|lia]. Qed.
Lemma u256_lt a : a < 2 ^ 256 -> u256 a = Done a.
Proof.
  change (2 ^ 256) with U256_CEIL. intros H. unfold u256, to_u256.
  destruct (N.ltb_spec a U256_CEIL); [done|lia].
Qed.

(** Decompose [H : m s = (Done b, s')] for a sequence [m]. *)
Ltac sm_step H :=
  lazymatch type of H with
  | sbind (lift _) _ _ = _ =>
      let a := fresh "v" in let s1 := fresh "s" in let E := fresh "E" in
      apply sbind_inv in H as (a & s1 & E & H); apply lift_inv in E as [E ->]
  | sbind (gets _) _ _ = _ =>
      let a := fresh "v" in let s1 := fresh "s" in
      apply sbind_inv in H as (a & s1 & [-> ->]%gets_inv & H)
  | sbind (modifies _) _ _ = _ =>
      let a := fresh "u" in let s1 := fresh "s" in let E := fresh "E" in
      apply sbind_inv in H as (a & s1 & E & H); apply modifies_inv in E
  | sbind _ _ _ = _ =>
      let a := fresh "v" in let s1 := fresh "s" in let E := fresh "E" in
      apply sbind_inv in H as (a & s1 & E & H)
  | lift _ _ = _ => apply lift_inv in H as [H ->]
  | modifies _ _ = _ => apply modifies_inv in H
  | sret _ _ = _ => apply sret_inv in H as [H ->]
  end.

(** The parts of a block. *)
Lemma apply_body_inv cr be txs wds s bo s' : apply_body cr be txs wds s = (Done bo, s') ->
  exists s1 s2 bo1 s3 bo2 s4,
    (if at_least Cancun (b_fork be)
     then exists o, process_unchecked_system_transaction cr be BEACON_ROOTS_ADDRESS
            (to_be_bytes32 (b_parent_beacon_block_root be)) s = (Done o, s1)
     else s1 = s) /\
    (if at_least Prague (b_fork be)
     then exists h o, last (b_block_hashes be) = Some h /\
            process_unchecked_system_transaction cr be HISTORY_STORAGE_ADDRESS (to_be_bytes32 h) s1
            = (Done o, s2)
     else s2 = s1) /\
    process_transactions cr be empty_block_output txs 0 s2 = (Done bo1, s3) /\
    (if at_least Shanghai (b_fork be) then process_withdrawals bo1 wds 0 s3 = (Done bo2, s4)
     else bo2 = bo1 /\ s4 = s3) /\
    (if at_least Prague (b_fork be) then process_general_purpose_requests cr be bo2 s4 = (Done bo, s')
     else bo = bo2 /\ s' = s4).
Proof.
  unfold apply_body. intros H.
  apply sbind_inv in H as ([] & s1 & H1 & H). apply sbind_inv in H as ([] & s2 & H2 & H).
  apply sbind_inv in H as (bo1 & s3 & H3 & H). apply sbind_inv in H as (bo2 & s4 & H4 & H5).
  exists s1, s2, bo1, s3, bo2, s4. split_and!; [| |done| |].
  - destruct (at_least Cancun (b_fork be)); [|by apply sret_inv in H1 as [_ ->]].
    sm_step H1. apply sret_inv in H1 as [_ ->]. by eexists.
  - destruct (at_least Prague (b_fork be)); [|by apply sret_inv in H2 as [_ ->]].
    sm_step H2. sm_step H2. apply sret_inv in H2 as [_ ->]. exists v, v0. split; [|done].
    destruct (last (b_block_hashes be)); [|done]. cbn in E. congruence.
  - destruct (at_least Shanghai (b_fork be)); [done|]. apply sret_inv in H4 as [-> ->]. done.
  - destruct (at_least Prague (b_fork be)); [done|]. apply sret_inv in H5 as [-> ->]. done.
Qed.
