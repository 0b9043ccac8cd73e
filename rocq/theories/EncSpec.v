(** Vocabulary of C73: the 32-byte strings that are accepted as points without being the encoding of one.
    Nothing here refers to the model of the library. *)
From Coq Require Import List ZArith.
From Verif Require Import GoBase FieldSpec.
Import ListNotations.
Open Scope Z_scope.

(** the y coordinates below 19 of curve points *)
Definition small_ys : list Z := [0; 1; 3; 4; 5; 6; 9; 10; 14; 15; 16; 18].
(** The strings as little endian numbers: y + p in the low 255 bits for these y, with either sign bit (24 strings),
    and y = 1, y = p - 1, where x = 0, with sign bit 1 (2 strings). *)
Definition odd_encodings : list Z :=
  map (fun y => y + p25519) small_ys ++ map (fun y => y + p25519 + 2 ^ 255) small_ys ++
  [1 + 2 ^ 255; p25519 - 1 + 2 ^ 255].
