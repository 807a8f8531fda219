(** * PowVmKeep: fields of the frame that the instructions leave alone.

    Used by PropPowFrames (logs of a static call) and PropPowSafe (the output
    of a frame that halted exceptionally). *)
From Verif Require Import Base State Rlp Bloom Transactions Trie Blocks Requests Fork Ethash Pow PowTx.
From Verif Require Import Vm Instructions Precompiles Interpreter PowVm.

(** [m] leaves [f] as it is, whether it returns or raises. *)
Definition keeps {A X} (f : evm -> A) (m : M X) : Prop := forall e w,
  match m e w with Ret _ e' _ => f e' = f e | Exc _ e' _ => f e' = f e end.
(** ... whenever it raises anything but Revert *)
Definition keeps_exc {A X} (f : evm -> A) (m : M X) : Prop := forall e w,
  match m e w with Ret _ _ _ | Exc ERevert _ _ => True | Exc _ e' _ => f e' = f e end.

Section Keep.
  Context {A : Type} (f : evm -> A).
  Lemma keeps_bind {X Y} (m : M X) (k : X -> M Y) :
    keeps f m -> (forall x, keeps f (k x)) -> keeps f (bind m k).
  Proof.
    intros Hm Hk e w. unfold bind. specialize (Hm e w). destruct (m e w) as [x e1 w1|]; [|done].
    specialize (Hk x e1 w1). destruct (k x e1 w1); congruence.
  Qed.
  Lemma keeps_exc_bind {X Y} (m : M X) (k : X -> M Y) :
    keeps f m -> (forall x, keeps_exc f (k x)) -> keeps_exc f (bind m k).
  Proof.
    intros Hm Hk e w. unfold bind. specialize (Hm e w). destruct (m e w) as [x e1 w1|[] ? ?]; try done.
    specialize (Hk x e1 w1). destruct (k x e1 w1) as [|[] ? ?]; congruence.
  Qed.
  Lemma keeps_exc_quietly m : keeps_exc f m -> keeps_exc f (quietly m).
  Proof. intros H e w. specialize (H e w). unfold quietly, bind, ret. by destruct (m e w). Qed.
  Lemma keeps_exc_of {X} (m : M X) : keeps f m -> keeps_exc f m.
  Proof. intros H e w. specialize (H e w). by destruct (m e w) as [|[] ? ?]. Qed.
  Lemma keeps_ret {X} (x : X) : keeps f (ret x). Proof. done. Qed.
  Lemma keeps_raise {X} x : keeps f (raise (A := X) x). Proof. done. Qed.
  Lemma keeps_get_evm : keeps f get_evm. Proof. done. Qed.
  Lemma keeps_get_state : keeps f get_state. Proof. done. Qed.
  Lemma keeps_put_state s : keeps f (put_state s). Proof. done. Qed.
  Lemma keeps_get_transient : keeps f get_transient. Proof. done. Qed.
  Lemma keeps_put_transient s : keeps f (put_transient s). Proof. done. Qed.
  Lemma keeps_lift {X} (r : result X) : keeps f (lift r). Proof. by destruct r. Qed.
  Lemma keeps_lift_state g : keeps f (lift_state g).
  Proof. intros e w. unfold lift_state, get_state, bind. by destruct (g (st w)). Qed.
  Lemma keeps_upd g : (forall e, f (g e) = f e) -> keeps f (upd g).
  Proof. intros H e w. apply H. Qed.
  Lemma keeps_exc_upd g : keeps_exc f (upd g).
  Proof. done. Qed.
  Lemma keeps_pop : (forall s e, f (set_stack s e) = f e) -> keeps f pop.
  Proof. intros H e w. unfold pop. by destruct (e_stack e). Qed.
  Lemma keeps_push v : (forall s e, f (set_stack s e) = f e) -> keeps f (push v).
  Proof. intros H e w. unfold push. by destruct (_ =? _). Qed.
  Lemma keeps_charge g : (forall s e, f (set_gas_left s e) = f e) -> keeps f (charge_gas g).
  Proof. intros H e w. unfold charge_gas. by destruct (_ <? _). Qed.
  Lemma keeps_child g m : keeps f (pow_call_child g m).
  Proof. intros e w. unfold pow_call_child. by destruct (g m w). Qed.
  Lemma keeps_child_old g m : keeps f (call_child g m).
  Proof. intros e w. unfold call_child. by destruct (g m w). Qed.
  Lemma keeps_pop_n k : (forall s e, f (set_stack s e) = f e) -> keeps f (pop_n k).
  Proof.
    intros H. induction k as [|k IH]; [done|]. cbn [pop_n].
    apply keeps_bind; [by apply keeps_pop|intros]. apply keeps_bind; [done|intros]. done.
  Qed.
End Keep.

Ltac keep_base := first
  [ apply keeps_ret | apply keeps_raise | apply keeps_get_evm | apply keeps_get_state
  | apply keeps_put_state | apply keeps_get_transient | apply keeps_put_transient
  | apply keeps_lift | apply keeps_lift_state | apply keeps_child | apply keeps_child_old
  | (apply keeps_pop; intros ? []; reflexivity) | (apply keeps_push; intros ? []; reflexivity)
  | (apply keeps_pop_n; intros ? []; reflexivity)
  | (apply keeps_charge; intros ? []; reflexivity)
  | (apply keeps_upd; intros []; cbn; repeat match goal with |- context [match ?x with _ => _ end] => destruct x end; reflexivity) ].
Ltac head_of t := lazymatch t with ?g _ => head_of g | _ => t end.
Ltac keep_step :=
  lazymatch goal with
  | |- keeps _ (bind _ _) => apply keeps_bind; [|intros]
  | |- keeps_exc _ (bind _ _) => apply keeps_exc_bind; [|intros]
  | |- keeps_exc _ (upd _) => apply keeps_exc_upd
  | |- keeps _ (match ?x with _ => _ end) => destruct x
  | |- keeps_exc _ (match ?x with _ => _ end) => destruct x
  | |- keeps _ ?m => first [ keep_base | let h := head_of m in unfold h ]
  | |- keeps_exc _ ?m =>
      first [ apply keeps_exc_of; keep_base | let h := head_of m in unfold h ]
  end; cbv zeta beta.
Ltac keep := intros; repeat keep_step.

(** ** The output is set by RETURN and REVERT alone. *)
Lemma op_keeps_output cr be te o : o <> RETURN -> o <> REVERT ->
  keeps e_output (op_implementation cr be te no_child no_child o).
Proof.
  intros H1 H2. destruct o; try done; cbn [op_implementation]; keep.
Qed.

Lemma pow_op_keeps_output cr n env te i pm pcm o : o <> RETURN -> o <> REVERT ->
  keeps e_output (pow_op cr n env te i pm pcm o).
Proof.
  intros H1 H2. destruct o; cbn [pow_op];
    try (unfold quietly; apply keeps_bind; [|intros; apply keeps_ret];
         first [by apply op_keeps_output | keep]).
  all: keep.
Qed.
Lemma pow_op_keeps_output_exc cr n env te i pm pcm o :
  keeps_exc e_output (pow_op cr n env te i pm pcm o).
Proof.
  assert (o = RETURN \/ o = REVERT \/ (o <> RETURN /\ o <> REVERT)) as [->|[->|[H1 H2]]].
  { destruct o; first [by left|by right; left|by right; right]. }
  - apply keeps_exc_quietly. cbn [op_implementation]. unfold op_return.
    repeat first [intros ? ?; exact I | keep_step; [solve [keep]|] | keep_step; []].
  - apply keeps_exc_quietly. cbn [op_implementation]. unfold op_revert.
    repeat first [intros ? ?; exact I | keep_step; [solve [keep]|] | keep_step; []].
  - by apply keeps_exc_of, pow_op_keeps_output.
Qed.

(** ** A static call that starts no frame logs nothing. *)
Definition dead_child (_ : gset address) (_ : message) (w : world) : ppres := PPExc EOutOfFuel w.
Lemma keeps_dead {A X} (f : evm -> A) d m (k : evm * gset address -> M X) :
  keeps f (bind (pow_call_child (dead_child d) m) k).
Proof. done. Qed.
Lemma staticcall_keeps_logs cr n env te i : keeps e_logs (pow_op cr n env te i dead_child dead_child STATICCALL).
Proof.
  cbn [pow_op]. unfold pow_staticcall, pow_generic_call.
  repeat first [apply keeps_dead | keep_step].
Qed.
