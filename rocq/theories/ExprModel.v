(** Expressions over field elements as the code evaluates them: the methods of [Ed25519FieldElement],
    ed25519_encode.go:128-921, applied to results of other calls in any nesting. *)
From Coq Require Import List ZArith.
From Verif Require Import GoBase FieldModel GroupModel Tables.
Import ListNotations.
Open Scope Z_scope.

(** The fields of [Ed25519Field], ed25519_encode.go:104-114. *)
Inductive fconst : Set := CZero | COne | CTwo | CD | CDTimesTwo | CI.
Inductive fexp : Set :=
  | XConst (c : fconst)
  | XLimbs (f : fe)                     (* NewEd25519FieldElement *)
  | XDecode (b : bytes)                 (* Decode of an encoded field element *)
  | XAdd (a b : fexp) | XSub (a b : fexp) | XNeg (a : fexp)
  | XMul (a b : fexp) | XSquare (a : fexp) | XSquareAndDouble (a : fexp)
  | XInvert (a : fexp) | XSqrt (a b : fexp).

(** [Ed25519FieldD] and the other constants, ed25519_encode.go:59-93, 104-114. *)
Definition const_fe (c : fconst) : fe :=
  match c with CZero => fe_zero | COne => fe_one | CTwo => fe_two | CD => go_d | CDTimesTwo => go_d2 | CI => fe_I end.
(** Evaluation: arguments from left to right, then the call.  Only Decode can panic.  ed25519_encode.go:128-130
    (NewEd25519FieldElement), :989-1037 (Decode), :172-178 (add), :193-200 (subtract), :213-220 (negate), :252-458 (multiply),
    :473-476 (square), :490-493 (squareAndDouble), :650-668 (invert), :139-150 (Ed25519FieldElementSqrt). *)
Fixpoint eval (e : fexp) : res fe :=
  match e with
  | XConst c => Ok (const_fe c)
  | XLimbs f => Ok f
  | XDecode b => fe_decode b
  | XAdd a b => do x <- eval a; do y <- eval b; Ok (fe_add x y)
  | XSub a b => do x <- eval a; do y <- eval b; Ok (fe_sub x y)
  | XNeg a => do x <- eval a; Ok (fe_neg x)
  | XMul a b => do x <- eval a; do y <- eval b; Ok (fe_mul x y)
  | XSquare a => do x <- eval a; Ok (fe_sq x)
  | XSquareAndDouble a => do x <- eval a; Ok (fe_sq2 x)
  | XInvert a => do x <- eval a; Ok (fe_invert x)
  | XSqrt a b => do x <- eval a; do y <- eval b; Ok (fe_sqrt x y)
  end.
(** What a program can see of an element: [Encode] (ed25519_encode.go:853-892), [Equals] (:911-914), [IsNonZero] (:153-156),
    [IsNegative] (:905-908). *)
Definition see_encode (e : fexp) : res bytes := do x <- eval e; Ok (fe_encode x).
Definition see_equals (a b : fexp) : res bool := do x <- eval a; do y <- eval b; Ok (fe_equals x y).
Definition see_is_nonzero (e : fexp) : res bool := do x <- eval e; Ok (fe_is_nonzero x).
Definition see_is_negative (e : fexp) : res bool := do x <- eval e; Ok (fe_is_negative x).
