(** What expressions over field elements mean (C78): numbers modulo p. *)
From Coq Require Import List ZArith.
From Verif Require Import GoBase FieldModel FieldSpec Fp Curve ExprModel.
Import ListNotations.
Open Scope Z_scope.

(** the root that Ed25519FieldElementSqrt takes: u v^3 (u v^7)^((p-5)/8) *)
Definition root (u v : F) : F := (u * Fpow v 3 * Fpow (u * Fpow v 7) ((p25519 - 5) / 8))%F.
Definition const_value (c : fconst) : F :=
  match c with CZero => F0 | COne => F1 | CTwo => inF 2 | CD => Fd | CDTimesTwo => (inF 2 * Fd)%F | CI => Fi end.
Fixpoint value (e : fexp) : F :=
  match e with
  | XConst c => const_value c
  | XLimbs f => inF (feval f)
  | XDecode b => inF (le_val (firstn 32 b) mod 2 ^ 255)
  | XAdd a b => (value a + value b)%F
  | XSub a b => (value a - value b)%F
  | XNeg a => (- value a)%F
  | XMul a b => (value a * value b)%F
  | XSquare a => (value a * value a)%F
  | XSquareAndDouble a => (inF 2 * (value a * value a))%F
  | XInvert a => Finv (value a)
  | XSqrt a b => root (value a) (value b)
  end.
(** The number of summands since the last reduction: products, squares, inverses, roots, constants and decoded strings count
    as one. *)
Fixpoint summands (e : fexp) : Z :=
  match e with
  | XAdd a b | XSub a b => summands a + summands b
  | XNeg a => summands a
  | _ => 1
  end.
(** The discipline: operands of a product, a square, an inverse or a root have at most three summands, nothing has more than
    nine thousand; strings have at least 32 bytes and given limbs are within 1.01 * 2^25, 1.01 * 2^24. *)
Fixpoint disciplined (e : fexp) : Prop :=
  match e with
  | XConst _ => True
  | XLimbs f => bnd 101 f
  | XDecode b => wf_bytes b /\ (32 <= length b)%nat
  | XAdd a b | XSub a b => disciplined a /\ disciplined b /\ summands a + summands b <= 9000
  | XNeg a => disciplined a
  | XMul a b | XSqrt a b => disciplined a /\ disciplined b /\ summands a <= 3 /\ summands b <= 3
  | XSquare a | XSquareAndDouble a | XInvert a => disciplined a /\ summands a <= 3
  end.
