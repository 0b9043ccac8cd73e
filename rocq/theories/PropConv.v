(** Property C79: the conversions of MathUtils between byte strings, integers and field elements, its square roots and its
    random numbers.  Statements; the proofs are in [PropConvLemmas].  [le_val] is the little endian value of a byte string,
    [feval] the integer ten limbs stand for, [F] the field of p elements with [inF] and [val] to and from integers, [root u v]
    the number u v^3 (u v^7)^((p-5)/8).  An argument [src] is what the random source will deliver. *)
From Coq Require Import List ZArith Bool.
From Verif Require Import GoBase FieldModel FieldSpec Fp Curve GroupModel GroupSpec ApiModel MathModel ExprSpec PropConvLemmas MathProofs.
Import ListNotations.
Open Scope Z_scope.

(** To integers: byte strings of every length, limbs without any bound, field elements. *)
Theorem C79_bytes_to_integer : forall b, wf_bytes b -> math_BytesToBigInteger b = le_val b.
Proof. exact bytes_value. Qed.
Theorem C79_limbs_to_integer : forall f, math_IntsToBigInteger f = feval f.
Proof. exact ints_value. Qed.
Theorem C79_field_to_integer : forall f, bnd 1000 f -> math_FieldToBigInteger f = feval f mod p25519.
Proof. exact field_int. Qed.
(** From integers: from 2^256 on a panic; below, also for negative numbers, 32 bytes of the absolute value. *)
Theorem C79_to_bytes_panics : forall b, math_ToByteArray b = Panic <-> 2 ^ 256 <= b.
Proof. exact to_bytes_panic. Qed.
Theorem C79_to_bytes : forall b, b < 2 ^ 256 ->
  exists r, math_ToByteArray b = Ok r /\ length r = 32%nat /\ wf_bytes r /\ le_val r = Z.abs b mod 2 ^ 256.
Proof. exact to_bytes_value. Qed.
Theorem C79_to_encoded : forall b,
  math_ToEncodedFieldElement b = math_ToByteArray b /\ math_toEncodedFieldElement b = math_ToByteArray b.
Proof. exact to_encoded. Qed.
(** A field element takes the low 255 bits of the absolute value. *)
Theorem C79_to_field_panics : forall b, math_ToFieldElement b = Panic <-> 2 ^ 256 <= b.
Proof. exact to_field_panic. Qed.
Theorem C79_to_field : forall b, b < 2 ^ 256 ->
  exists f, math_ToFieldElement b = Ok f /\ bnd 101 f /\ eqp (feval f) (Z.abs b mod 2 ^ 255).
Proof. exact to_field. Qed.
(** There and back. *)
Theorem C79_bytes_back : forall b, wf_bytes b -> length b = 32%nat -> math_ToByteArray (math_BytesToBigInteger b) = Ok b.
Proof. exact back_bytes. Qed.
Theorem C79_integer_back : forall b, 0 <= b < 2 ^ 256 -> exists r, math_ToEncodedFieldElement b = Ok r /\ math_BytesToBigInteger r = b.
Proof. exact back_int. Qed.
Theorem C79_integer_back_from_field : forall b, 0 <= b < 2 ^ 255 ->
  exists f, math_ToFieldElement b = Ok f /\ math_FieldToBigInteger f = b mod p25519.
Proof. exact back_field_int. Qed.
Theorem C79_field_back : forall f, bnd 1000 f ->
  exists g, math_ToFieldElement (math_FieldToBigInteger f) = Ok g /\ fe_equals g f = true.
Proof. exact back_field. Qed.
(** Not so for field elements from 2^255 on, nor for negative numbers. *)
Theorem C79_field_of_integer_refuted :
  (exists b f, 0 <= b < 2 ^ 256 /\ math_ToFieldElement b = Ok f /\ math_FieldToBigInteger f <> b mod p25519) /\
  (exists b f, b < 0 /\ math_ToFieldElement b = Ok f /\ math_FieldToBigInteger f <> b mod p25519).
Proof. exact field_refuted. Qed.
(** The reference square root is that of the field elements. *)
Theorem C79_square_root : forall u v, math_sqrt u v = Fp.val (root (inF u) (inF v)).
Proof. exact sqrt_root. Qed.
Theorem C79_same_square_root : forall u v, bnd 330 u -> bnd 330 v ->
  math_sqrt (math_FieldToBigInteger u) (math_FieldToBigInteger v) = math_FieldToBigInteger (fe_sqrt u v).
Proof. exact sqrt_same. Qed.
(** GetAffineXFromAffineY, for every integer y: 0 for y = 0, 1, -1 modulo p and an error for all others. *)
Theorem C79_affine_x : forall y negative, math_GetAffineX y negative =
  if (y mod p25519 =? 0) || (y mod p25519 =? 1) || (y mod p25519 =? p25519 - 1) then Ok 0 else Err ErrNotGroupElement.
Proof. exact affine_x_all. Qed.
(** ToGroupElement, for every byte string (bit 255 is not part of y): exactly the strings with such a y are accepted, with
    x = 0; if they are also too long they panic. *)
Theorem C46_every_string : forall raw, wf_bytes raw -> (32 <= length raw)%nat ->
  let y := le_val (firstn 32 raw) mod 2 ^ 255 + 2 ^ 256 * le_val (skipn 32 raw) in
  let known := y mod p25519 = 0 \/ y mod p25519 = 1 \/ y mod p25519 = p25519 - 1 in
  (~ known -> snd (math_ToGroupElement raw) = Err ErrNotGroupElement) /\
  (known -> 2 ^ 256 <= y -> snd (math_ToGroupElement raw) = Panic) /\
  (known -> y < 2 ^ 256 ->
    exists X Y Z T, snd (math_ToGroupElement raw) = Ok (newP3 X Y Z T) /\ rF X = F0 /\ rF Y = inF y /\ rF Z = F1 /\ rF T = F0).
Proof. exact toGroup_every. Qed.
(** Random numbers: the next bytes of the source, or a panic. *)
Theorem C79_random_bytes : forall src n, math_GetRandomByteArray src n =
  if Nat.leb n (length src) then Ok (firstn n src, skipn n src) else Panic.
Proof. exact random_bytes. Qed.
Theorem C79_random_int64 : forall src, (8 <= length src)%nat -> exists v, math_GetRandomInt64 src = Ok (v, skipn 8 src) /\
  - 2 ^ 63 <= v < 2 ^ 63 /\ v mod 2 ^ 64 = le_val (firstn 8 src) mod 2 ^ 64.
Proof. exact random_int64. Qed.
Theorem C79_random_int64_short : forall src, (length src < 8)%nat -> math_GetRandomInt64 src = Panic.
Proof. exact random_int64_short. Qed.

Example C79_nonvacuous : bnd 330 (Fe 4 (-7) 0 0 0 0 0 0 0 (-1)) /\
  math_ToByteArray (-258) = Ok (2 :: 1 :: repeat 0 30) /\
  math_IntsToBigInteger (Fe (2 ^ 62) 0 0 0 0 0 0 0 0 (-1)) = 2 ^ 62 - 2 ^ 230 /\
  math_GetRandomInt64 (repeat 255 9) = Ok (-1, [255]).
Proof. exact ex_conv. Qed.
Example C79_nonvacuous_affine_x : math_GetAffineX (- p25519) true = Ok 0 /\ math_GetAffineX 5 true = Err ErrNotGroupElement.
Proof. exact ex_conv_x. Qed.
Example C46_nonvacuous_every_string : let raw := le_bytes 32 (p25519 + 1 + 2 ^ 255) in wf_bytes raw /\ length raw = 32%nat /\
  (le_val (firstn 32 raw) mod 2 ^ 255 + 2 ^ 256 * le_val (skipn 32 raw)) mod p25519 = 1 /\ exists g, snd (math_ToGroupElement raw) = Ok g.
Proof. exact ex_conv_group. Qed.

Print Assumptions C79_bytes_to_integer.
Print Assumptions C79_limbs_to_integer.
Print Assumptions C79_field_to_integer.
Print Assumptions C79_to_bytes_panics.
Print Assumptions C79_to_bytes.
Print Assumptions C79_to_encoded.
Print Assumptions C79_to_field_panics.
Print Assumptions C79_to_field.
Print Assumptions C79_bytes_back.
Print Assumptions C79_integer_back.
Print Assumptions C79_integer_back_from_field.
Print Assumptions C79_field_back.
Print Assumptions C79_field_of_integer_refuted.
Print Assumptions C79_square_root.
Print Assumptions C79_same_square_root.
Print Assumptions C79_affine_x.
Print Assumptions C46_every_string.
Print Assumptions C79_random_bytes.
Print Assumptions C79_random_int64.
Print Assumptions C79_random_int64_short.
