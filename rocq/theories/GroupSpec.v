(** What a group element denotes: the specification vocabulary of the group layer. *)
From Coq Require Import List ZArith.
From Verif Require Import GoBase FieldModel FieldSpec GroupModel Fp Curve.
Import ListNotations.
Open Scope Z_scope.

(** the element of F_p denoted by ten limbs *)
Definition rF (f : fe) : F := inF (feval f).

(** The limb bounds (in hundredths of 2^25 / 2^24): 1.1 for AFFINE, P2, P3 coordinates (as in the
    comments of the Go code), 3.3 for the intermediate systems. *)
Definition cs_bound (c : csys) : Z :=
  match c with AFFINE | P2 | P3 => 110 | P1xP1 | PRECOMPUTED | CACHED => 330 end.
Definition gbnd (g : gcore) : Prop :=
  let k := cs_bound (g_cs g) in
  bnd k (gX g) /\ bnd k (gY g) /\ bnd k (gZ g) /\
  match gT g with Some t => bnd k t | None => True end.

(** [rep g P]: g represents the curve point P, as documented at ed25519_encode.go:1912-1926. *)
Definition rep (g : gcore) (P : point) : Prop :=
  gbnd g /\
  let x := px P in let y := py P in
  let X := rF (gX g) in let Y := rF (gY g) in let Z := rF (gZ g) in
  match g_cs g with
  | AFFINE => X = x /\ Y = y
  | P2 => Z <> F0 /\ X = (x * Z)%F /\ Y = (y * Z)%F
  | P3 => Z <> F0 /\ X = (x * Z)%F /\ Y = (y * Z)%F /\
      exists t, gT g = Some t /\ rF t = (x * y * Z)%F
  | P1xP1 => exists t, gT g = Some t /\ Z <> F0 /\ rF t <> F0 /\ X = (x * Z)%F /\ Y = (y * rF t)%F
  | PRECOMPUTED => X = (y + x)%F /\ Y = (y - x)%F /\ Z = (inF 2 * Fd * x * y)%F
  | CACHED => Z <> F0 /\ X = ((y + x) * Z)%F /\ Y = ((y - x) * Z)%F /\
      exists t, gT g = Some t /\ rF t = (inF 2 * Fd * x * y * Z)%F
  end.
Definition repc (c : csys) (g : gcore) (P : point) : Prop := g_cs g = c /\ rep g P.

(** The 32-byte encoding of a point: y in 255 bits, the parity of x in bit 255. *)
Definition enc_point (P : point) : bytes :=
  le_bytes 32 (val (py P) + (if Fneg (px P) then 2 ^ 255 else 0)).

(** A table for scalarMultiply: entry (i, j) represents (j+1) * 256^i * P. *)
Definition single_table (rows : list (list gcore)) (P : point) : Prop :=
  length rows = 32%nat /\
  forall i row, nth_error rows i = Some row ->
    length row = 8%nat /\
    forall j e, nth_error row j = Some e ->
      repc PRECOMPUTED e (zmul ((Z.of_nat j + 1) * 256 ^ Z.of_nat i) P).
(** A table for doubleScalarMultiplyVariableTime: entry j represents (2j+1) * P. *)
Definition double_table (l : list gcore) (P : point) : Prop :=
  length l = 8%nat /\
  forall j e, nth_error l j = Some e -> repc PRECOMPUTED e (zmul (2 * Z.of_nat j + 1) P).

(** What a byte string denotes as a point: its y coordinate is the integer in the low 255 bits of
    its first 32 bytes, reduced modulo p, and bit 255 is the parity of x (if x = 0, the bit is
    ignored). *)
Definition y255 (raw : bytes) : F := inF (le_val (firstn 32 raw) mod 2 ^ 255).
Definition sign255 (raw : bytes) : bool := 2 ^ 255 <=? le_val (firstn 32 raw).
Definition denotes (raw : bytes) (P : point) : Prop :=
  py P = y255 raw /\ (Fneg (px P) = sign255 raw \/ px P = F0).
