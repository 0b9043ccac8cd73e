(** Property C78: expressions over field elements, of any size and nesting.  Statements; the proofs are in [PropExprLemmas].
    [eval] and the [see_...] functions (ExprModel) are the code; [value], [summands], [disciplined] (ExprSpec) say what an
    expression means modulo p and how many unreduced summands its operands have.  [F] is the field of p elements, [val] the
    representative from 0 to p - 1. *)
From Coq Require Import List ZArith.
From Verif Require Import GoBase FieldModel FieldSpec Fp ExprModel ExprSpec PropExprLemmas.
Import ListNotations.
Open Scope Z_scope.

(** Encode gives the 32 bytes of the value, IsNegative its lowest bit ... *)
Theorem C78_encode : forall e, disciplined e -> summands e <= 9 -> see_encode e = Ok (le_bytes 32 (Fp.val (value e))).
Proof. exact encode_ok. Qed.
Theorem C78_is_negative : forall e, disciplined e -> summands e <= 9 -> see_is_negative e = Ok (Z.odd (Fp.val (value e))).
Proof. exact negative_e. Qed.
(** ... Equals and IsNonZero decide equality of values. *)
Theorem C78_equals : forall a b, disciplined a -> disciplined b -> summands a <= 9 -> summands b <= 9 ->
  exists r, see_equals a b = Ok r /\ (r = true <-> value a = value b).
Proof. exact equals_e. Qed.
Theorem C78_is_nonzero : forall e, disciplined e -> summands e <= 9 ->
  exists r, see_is_nonzero e = Ok r /\ (r = true <-> value e <> F0).
Proof. exact nonzero_e. Qed.
(** Two expressions with one value cannot be told apart. *)
Theorem C78_only_the_value : forall a b, disciplined a -> disciplined b -> summands a <= 9 -> summands b <= 9 ->
  value a = value b ->
  see_encode a = see_encode b /\ see_is_nonzero a = see_is_nonzero b /\ see_is_negative a = see_is_negative b /\
  see_equals a b = Ok true.
Proof. exact same_value. Qed.
(** Without the discipline the limbs wrap around: *)
Theorem C78_undisciplined_refuted : exists e, see_is_nonzero e = Ok false /\ value e <> F0.
Proof. exact undisciplined. Qed.
Example C78_nonvacuous : disciplined ex_lhs /\ disciplined ex_rhs /\ summands ex_lhs <= 9 /\ summands ex_rhs <= 9 /\
  value ex_lhs = value ex_rhs /\ eval ex_lhs <> eval ex_rhs.
Proof. exact ex_same. Qed.

Print Assumptions C78_encode.
Print Assumptions C78_is_negative.
Print Assumptions C78_equals.
Print Assumptions C78_is_nonzero.
Print Assumptions C78_only_the_value.
Print Assumptions C78_undisciplined_refuted.
