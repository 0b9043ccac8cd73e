(** Small specification vocabulary for the field layer. *)
From Coq Require Import ZArith.
From Verif Require Import GoBase FieldModel.
Open Scope Z_scope.

(** The field size and the group order. *)
Definition p25519 : Z := 2 ^ 255 - 19.
Definition q25519 : Z := 2 ^ 252 + 27742317777372353535851937790883648493.

(** The integer denoted by ten limbs (documented at ed25519_encode.go:116-121):
    Raw[0] + 2^26 Raw[1] + 2^51 Raw[2] + ... + 2^230 Raw[9]. *)
Definition feval (f : fe) : Z :=
  r0 f + 2^26 * r1 f + 2^51 * r2 f + 2^77 * r3 f + 2^102 * r4 f +
  2^128 * r5 f + 2^153 * r6 f + 2^179 * r7 f + 2^204 * r8 f + 2^230 * r9 f.

(** Equality modulo p. *)
Definition eqp (a b : Z) : Prop := (p25519 | a - b).

(** Limb bounds in hundredths, as in the Go comments: [bnd 165 f] is
    |f| bounded by 1.65*2^25, 1.65*2^24, 1.65*2^25, ... *)
Definition bnd (k : Z) (f : fe) : Prop :=
  100 * Z.abs (r0 f) <= k * 2^25 /\ 100 * Z.abs (r1 f) <= k * 2^24 /\
  100 * Z.abs (r2 f) <= k * 2^25 /\ 100 * Z.abs (r3 f) <= k * 2^24 /\
  100 * Z.abs (r4 f) <= k * 2^25 /\ 100 * Z.abs (r5 f) <= k * 2^24 /\
  100 * Z.abs (r6 f) <= k * 2^25 /\ 100 * Z.abs (r7 f) <= k * 2^24 /\
  100 * Z.abs (r8 f) <= k * 2^25 /\ 100 * Z.abs (r9 f) <= k * 2^24.

(** All limbs are int64 values. *)
Definition fe64 (f : fe) : Prop :=
  in64 (r0 f) /\ in64 (r1 f) /\ in64 (r2 f) /\ in64 (r3 f) /\ in64 (r4 f) /\
  in64 (r5 f) /\ in64 (r6 f) /\ in64 (r7 f) /\ in64 (r8 f) /\ in64 (r9 f).
