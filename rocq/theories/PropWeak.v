(** Property C89: calls on one group element when memory promises next to nothing.  Statements; the proofs are in
    [WeakProofs] and [PropWeakLemmas].  [wmoves c wblank s]: the calls on a new element with coordinates c can reach s, when
    a load may give nil or anything that was ever stored there. *)
From Coq Require Import List ZArith.
From Verif Require Import GoBase FieldModel Fp Curve BasePoint GroupModel GroupSpec TextModel TextSpec RecoverModel
  RaceModel RaceSpec ScalarSpec WeakModel WeakSpec PropWeakLemmas PropWeakDoubleLemmas.
Import ListNotations.
Open Scope Z_scope.

(** Everything that can happen when all goroutines see memory in one order (C80) can happen here. *)
Theorem C89_includes_one_order : forall c h, exists s, wmoves c wblank s /\ map fst (calls s) = threads (race c h).
Proof. exact includes_race. Qed.
(** No call ever stores a wrong entry. *)
Theorem C89_no_wrong_entry : forall c P, repc P3 c P -> forall s, wmoves c wblank s ->
  (forall t i r j e, In (SRow t i r) (stores s) -> In (SEntry r j e) (stores s) ->
     repc PRECOMPUTED e (zmul ((Z.of_nat j + 1) * 256 ^ Z.of_nat i) P)) /\
  (forall t j e, In (SDEntry t j e) (stores s) -> repc PRECOMPUTED e (zmul (2 * Z.of_nat j + 1) P)).
Proof. exact weak_entries. Qed.
(** A Select panics, or gives the error for nil, or is right, or gives the neutral element. *)
Theorem C89_select : forall c P, repc P3 c P -> forall s, wmoves c wblank s -> forall pos b o, has_ended s (CSelect pos b) o ->
  failed o \/ exists r, o = Result (ROk r) /\ (repc PRECOMPUTED r (zmul (digit b * 256 ^ pos) P) \/ repc PRECOMPUTED r pzero).
Proof. exact weak_select. Qed.
(** A multiplication panics, or gives the error for nil, or gives the multiple by some of the 64 signed digits of the
    scalar: a digit is there with its place, or it is missing, but nothing else comes in.  The last digit is missing when it
    is larger than 8. *)
Theorem C89_multiply : forall c P, repc P3 c P -> forall s, wmoves c wblank s -> forall a o, wf_bytes a -> has_ended s (CMultiply a) o ->
  failed o \/ exists d keep r, o = Result (ROk r) /\ signed_digits (le_val (firstn 32 a)) d /\ length keep = 64%nat /\
    (8 < nth 63 d 0 -> nth 63 keep true = false) /\ repc P3 r (zmul (kept keep d) P).
Proof. exact weak_multiply. Qed.
Theorem C89_other_calls : forall c P, repc P3 c P -> forall s, wmoves c wblank s -> forall o,
  (has_ended s CSingle o \/ has_ended s CDouble o -> o = Returned \/ o = Panicked) /\
  (has_ended s CIsDouble o -> o = Panicked \/ exists b, o = Answer b).
Proof. exact weak_others. Qed.
(** When IsPrecomputedForDoubleScalarMultiplication says true, some goroutine has stored a table. *)
Theorem C89_is_precomputed : forall c s, wmoves c wblank s -> has_ended s CIsDouble (Answer true) -> exists t, In (SDouble t) (stores s).
Proof. exact weak_answer. Qed.
(** No call does more than 1000 steps, and none is ever stuck. *)
Theorem C89_every_call_ends : forall c s x a n, wmoves c wblank s -> In (x, a, n) (calls s) ->
  (n <= 1000)%nat /\ ((forall o, a <> Fin o) -> exists l a', wstep (stores s) a l a').
Proof. exact (fun c s x a n M H => conj (weak_steps c s x a n M H) (weak_progress (stores s) a)). Qed.
(** That the only precomputation has returned means nothing to a goroutine that is not synchronised with it: its
    multiplication can return the neutral element without an error, whatever the scalar. *)
Theorem C89_returned_is_not_enough : forall c P, repc P3 c P -> exists s, wmoves c wblank s /\ map fst (calls s) = [(CSingle, Fin Returned)] /\
  forall a, wf_bytes a -> (32 <= length a)%nat -> exists s' r, wmoves c s s' /\
    map fst (calls s') = [(CSingle, Fin Returned); (CMultiply a, Fin (Result (ROk r)))] /\ repc P3 r pzero.
Proof. exact not_enough. Qed.
(** doubleScalarMultiplyVariableTime on two elements, or twice the same, while others do whatever they like with them: it
    gives the right point or panics. *)
Theorem C89_double_right_or_panics : forall cB PB cA PA sB sA a b x, repc P3 cB PB -> repc P3 cA PA ->
  wmoves cB wblank sB -> wmoves cA wblank sA -> wf_bytes a -> wf_bytes b -> w_double_multiply (stores sB) (stores sA) a b x ->
  x = Panic \/ exists r, x = Ok r /\
    repc P2 r (psub (zmul (double_scalar (le_val (firstn 32 b))) PB) (zmul (double_scalar (le_val (firstn 32 a))) PA)).
Proof. exact weak_double. Qed.
(** It can panic at any time unless both scalars are zero. *)
Theorem C89_double_can_panic : forall lB lA a b, wf_bytes a -> (32 <= length a)%nat -> wf_bytes b -> (32 <= length b)%nat ->
  (w_double_multiply lB lA a b Panic <-> le_val (firstn 32 a) <> 0 \/ le_val (firstn 32 b) <> 0).
Proof. exact wdouble_panics. Qed.
(** What it gives when all goroutines see memory in one order is among what it can give; then full tables (C80) make it
    right. *)
Theorem C89_double_includes_one_order : forall cB cA hB hA, exists sB sA, wmoves cB wblank sB /\ wmoves cA wblank sA /\
  map fst (calls sB) = threads (race cB hB) /\ map fst (calls sA) = threads (race cA hA) /\
  forall a b, w_double_multiply (stores sB) (stores sA) a b
    (r_double_scalar_multiply (seen cB (memory (race cB hB))) (seen cA (memory (race cA hA))) a b).
Proof. exact double_one_order. Qed.
Theorem C80_double_multiply : forall B A PB PA a b, full_double B PB -> full_double A PA ->
  wf_bytes a -> (32 <= length a)%nat -> wf_bytes b -> (32 <= length b)%nat ->
  exists r, r_double_scalar_multiply B A a b = Ok r /\
    repc P2 r (psub (zmul (double_scalar (le_val (firstn 32 b))) PB) (zmul (double_scalar (le_val (firstn 32 a))) PA)).
Proof. exact full_right. Qed.
Example C89_nonvacuous_double : exists c s a b r, repc P3 c Bpt /\ wmoves c wblank s /\ has_ended s CDouble Returned /\ wf_bytes a /\ wf_bytes b /\
  w_double_multiply (stores s) (stores s) a b (Ok r) /\ repc P2 r (zmul 2 Bpt) /\ w_double_multiply (stores s) (stores s) a b Panic.
Proof. exact ex_weak_double. Qed.
Example C89_nonvacuous : exists c s, repc P3 c Bpt /\ wmoves c wblank s /\ has_ended s CSingle Returned /\
  exists a r, wf_bytes a /\ has_ended s (CMultiply a) (Result (ROk r)) /\ repc P3 r pzero /\ zmul (le_val (firstn 32 a)) Bpt <> pzero.
Proof. exact ex_weak. Qed.

Print Assumptions C89_includes_one_order.
Print Assumptions C89_no_wrong_entry.
Print Assumptions C89_select.
Print Assumptions C89_multiply.
Print Assumptions C89_other_calls.
Print Assumptions C89_every_call_ends.
Print Assumptions C89_returned_is_not_enough.
Print Assumptions C89_is_precomputed.
Print Assumptions C89_double_right_or_panics.
Print Assumptions C89_double_can_panic.
Print Assumptions C89_double_includes_one_order.
Print Assumptions C80_double_multiply.
