(** Vocabulary of the properties C45 - C48. *)
From Coq Require Import List ZArith.
From Verif Require Import GoBase FieldModel Fp Curve GroupModel GroupSpec.
Import ListNotations.
Open Scope Z_scope.

(** The operands for which the two calls do not disturb each other. *)
Definition safe (P Q : point) : Prop :=
  px P = F0 \/ (2 ^ 64 <= val (px P) /\ 2 ^ 64 <= val (py Q)).

(** the pairs added while multiplying P by n, most significant bit first *)
Definition safe_mul (n : Z) (P : point) : Prop := forall i, 0 <= i < 255 ->
  let h := zmul (n / 2 ^ (i + 1)) P in
  safe h h /\ (Z.testbit n i = true -> safe (padd h h) P).

(** the k-th block of 32 bytes *)
Definition block (src : bytes) (k : nat) : bytes := firstn 32 (skipn (32 * k) src).
