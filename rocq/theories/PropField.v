(** Properties C13 - C19: field and scalar arithmetic.  Statements; the proofs are in the *Proofs
    files, in [FieldPow] and in [PropFieldLemmas]. *)
From Coq Require Import List ZArith Lia Bool.
From Verif Require Import GoBase FieldModel FieldSpec FieldProofs ScalarModel Fp Curve GroupSpec
  PropFieldLemmas.
Import ListNotations.
Open Scope Z_scope.

(** C13.  With operands within the documented bounds (1.65*2^26, 1.65*2^25, ... for products;
    anything up to 10^4 * 2^25 for sums) the ten int64 limbs returned are those of exact integer
    arithmetic ([fe_mulZ], ...: the same program without wrap-around), the value is the product,
    square, doubled square, sum, difference, negation modulo p, and the output bounds hold. *)
Theorem C13_field_multiply : forall f g, bnd 330 f -> bnd 330 g ->
  fe_mul f g = fe_mulZ f g /\ eqp (feval (fe_mul f g)) (feval f * feval g) /\ bnd 101 (fe_mul f g).
Proof. exact fe_mul_ok. Qed.
Theorem C13_field_square : forall f, bnd 330 f ->
  fe_sq f = fe_sqoptZ false f /\ eqp (feval (fe_sq f)) (feval f * feval f) /\ bnd 101 (fe_sq f).
Proof. exact fe_sq_ok. Qed.
Theorem C13_field_square_double : forall f, bnd 330 f ->
  fe_sq2 f = fe_sqoptZ true f /\ eqp (feval (fe_sq2 f)) (2 * (feval f * feval f)) /\ bnd 101 (fe_sq2 f).
Proof. exact fe_sq2_ok. Qed.
Theorem C13_field_add : forall j k f g, bnd j f -> bnd k g -> j <= 1000000 -> k <= 1000000 ->
  fe_add f g = fe_addZ f g /\ feval (fe_add f g) = feval f + feval g /\ bnd (j + k) (fe_add f g).
Proof. exact fe_add_ok. Qed.
Theorem C13_field_subtract : forall j k f g, bnd j f -> bnd k g -> j <= 1000000 -> k <= 1000000 ->
  fe_sub f g = fe_subZ f g /\ feval (fe_sub f g) = feval f - feval g /\ bnd (j + k) (fe_sub f g).
Proof. exact fe_sub_ok. Qed.
Theorem C13_field_negate : forall j f, bnd j f -> j <= 1000000 ->
  fe_neg f = fe_negZ f /\ feval (fe_neg f) = - feval f /\ bnd j (fe_neg f).
Proof. exact fe_neg_ok. Qed.
(** non-vacuity: an element whose limbs reach the bound 1.65*2^26, 1.65*2^25, alternating signs *)
Example C13_nonvacuous : bnd 330 ex_limbs /\ feval ex_limbs <> 0 /\
  fe_mul ex_limbs ex_limbs <> ex_limbs.
Proof. exact ex_limbs_ok. Qed.

(** C14. *)
Theorem C14_invert : forall x, bnd 330 x ->
  (~ eqp (feval x) 0 -> eqp (feval (fe_invert x) * feval x) 1) /\
  (eqp (feval x) 0 -> eqp (feval (fe_invert x)) 0) /\
  bnd 101 (fe_invert x).
Proof. exact invert_ok. Qed.
Example C14_nonvacuous : bnd 330 ex_limbs /\ ~ eqp (feval ex_limbs) 0.
Proof. exact ex_limbs_nz. Qed.

(** C15. *)
Theorem C15_encode_canonical : forall f, bnd 1000 f ->
  fe_encode f = le_bytes 32 (feval f mod p25519).
Proof. exact encode_canonical. Qed.
Theorem C15_equals : forall f g, bnd 1000 f -> bnd 1000 g ->
  (fe_equals f g = true <-> eqp (feval f) (feval g)).
Proof. exact equals_ok. Qed.
Theorem C15_is_nonzero : forall f, bnd 1000 f -> (fe_is_nonzero f = true <-> ~ eqp (feval f) 0).
Proof. exact is_nonzero_ok. Qed.
Theorem C15_is_negative : forall f, bnd 1000 f ->
  (fe_is_negative f = true <-> Z.odd (feval f mod p25519) = true).
Proof. exact is_negative_ok. Qed.
(** without the bounds (the exported constructor takes any ten int64) it is false: *)
Theorem C15_arbitrary_limbs_refuted :
  ~ (forall f, fe64 f -> fe_encode f = le_bytes 32 (feval f mod p25519)) /\
  ~ (forall f g, fe64 f -> fe64 g -> eqp (feval f) (feval g) -> fe_equals f g = true).
Proof. exact arbitrary_limbs. Qed.
Example C15_nonvacuous : bnd 1000 ex_limbs /\ bnd 1000 fe_one /\ fe_equals ex_limbs fe_one = false /\
  fe_equals ex_limbs ex_limbs = true.
Proof. exact ex_limbs_eq. Qed.

(** C16. *)
Theorem C16_decode : forall b, wf_bytes b -> length b = 32%nat ->
  exists f, fe_decode b = Ok f /\ bnd 101 f /\ eqp (feval f) (le_val b mod 2 ^ 255) /\
    fe_encode f = le_bytes 32 ((le_val b mod 2 ^ 255) mod p25519) /\
    (fe_encode f = b <-> le_val b < p25519).
Proof. exact decode_ok. Qed.
Theorem C16_decode_encode : forall f, bnd 1000 f ->
  exists g, fe_decode (fe_encode f) = Ok g /\ eqp (feval g) (feval f).
Proof. exact decode_encode. Qed.
(** 64-byte strings are decoded by their first 32 bytes, shorter ones panic *)
Theorem C16_decode_long : forall b, wf_bytes b -> (32 <= length b)%nat ->
  fe_decode b = fe_decode (firstn 32 b).
Proof. exact decode_long. Qed.
Theorem C16_decode_short : forall b, (length b < 32)%nat -> fe_decode b = Panic.
Proof. exact decode_short. Qed.
Example C16_nonvacuous : wf_bytes (repeat 255 32) /\ length (repeat 255 32) = 32%nat /\
  le_val (repeat 255 32) >= p25519.
Proof. exact ex_ff. Qed.

(** C17.  With u, v in F_p denoted by the arguments and v <> 0: the result x has v*x^2 = u or
    v*x^2 = -u exactly when u/v is a square. *)
Theorem C17_sqrt : forall u v, bnd 330 u -> bnd 330 v -> rF v <> F0 ->
  let x := rF (fe_sqrt u v) in
  ((rF v * (x * x) = rF u \/ rF v * (x * x) = - rF u)%F <-> exists s, (rF v * (s * s) = rF u)%F) /\
  bnd 101 (fe_sqrt u v).
Proof. exact sqrt_ok. Qed.
Theorem C17_sqrt_zero : forall u v, bnd 330 u -> bnd 330 v -> rF u = F0 -> rF (fe_sqrt u v) = F0.
Proof. exact sqrt_zero. Qed.
Example C17_nonvacuous : bnd 330 (Fe 4 0 0 0 0 0 0 0 0 0) /\ bnd 330 (Fe 9 0 0 0 0 0 0 0 0 0) /\
  rF (Fe 9 0 0 0 0 0 0 0 0 0) <> F0 /\
  (exists s, rF (Fe 9 0 0 0 0 0 0 0 0 0) * (s * s) = rF (Fe 4 0 0 0 0 0 0 0 0 0))%F /\
  ~ (exists s, rF (Fe 1 0 0 0 0 0 0 0 0 0) * (s * s) = rF (Fe 2 0 0 0 0 0 0 0 0 0))%F.
Proof. exact ex_sqrt. Qed.

(** C18. *)
Theorem C18_modQ : forall b, wf_bytes b -> length b = 64%nat ->
  exists r, sc_modQ b = Ok r /\ length r = 32%nat /\ wf_bytes r /\ le_val r = le_val b mod q25519.
Proof. exact modQ_ok. Qed.
Theorem C18_modQ_bytes : forall b, wf_bytes b -> length b = 64%nat ->
  sc_modQ b = Ok (le_bytes 32 (le_val b mod q25519)).
Proof. exact modQ_bytes. Qed.
Theorem C18_modQ_short : forall b, (length b < 64)%nat -> sc_modQ b = Panic.
Proof. exact modQ_short. Qed.
(** every length: longer arguments are read up to byte 64 (32), shorter ones panic. *)
Theorem C18_modQ_any : forall b, wf_bytes b -> (64 <= length b)%nat ->
  sc_modQ b = Ok (le_bytes 32 (le_val (firstn 64 b) mod q25519)).
Proof. exact modQ_long. Qed.
Example C18_any_nonvacuous : exists a, wf_bytes a /\ (64 < length a)%nat /\
  q25519 < le_val (firstn 64 a) /\ firstn 64 a <> a.
Proof. exact ex_long. Qed.
Example C18_nonvacuous : exists b, wf_bytes b /\ length b = 64%nat /\ q25519 < le_val b /\
  le_val b mod q25519 <> 0.
Proof. exact ex_modQ. Qed.

(** C19. *)
Theorem C19_mulAdd : forall a b c, wf_bytes a -> wf_bytes b -> wf_bytes c ->
  length a = 32%nat -> length b = 32%nat -> length c = 32%nat ->
  exists r, sc_mulAdd a b c = Ok r /\ length r = 32%nat /\ wf_bytes r /\
    le_val r = (le_val a * le_val b + le_val c) mod q25519.
Proof. exact mulAdd_ok. Qed.
Theorem C19_mulAdd_bytes : forall a b c, wf_bytes a -> wf_bytes b -> wf_bytes c ->
  length a = 32%nat -> length b = 32%nat -> length c = 32%nat ->
  sc_mulAdd a b c = Ok (le_bytes 32 ((le_val a * le_val b + le_val c) mod q25519)).
Proof. exact mulAdd_bytes. Qed.
Theorem C19_mulAdd_any : forall a b c, wf_bytes a -> wf_bytes b -> wf_bytes c ->
  (32 <= length a)%nat -> (32 <= length b)%nat -> (32 <= length c)%nat ->
  sc_mulAdd a b c =
  Ok (le_bytes 32 ((le_val (firstn 32 a) * le_val (firstn 32 b) + le_val (firstn 32 c)) mod q25519)).
Proof. exact mulAdd_long. Qed.
Theorem C19_mulAdd_short : forall a b c,
  (length a < 32)%nat \/ (length b < 32)%nat \/ (length c < 32)%nat -> sc_mulAdd a b c = Panic.
Proof. exact mulAdd_short. Qed.
Example C19_nonvacuous : exists a, wf_bytes a /\ length a = 32%nat /\ q25519 < le_val a.
Proof. exact ex_mulAdd. Qed.

Print Assumptions C13_field_multiply.
Print Assumptions C13_field_square.
Print Assumptions C13_field_square_double.
Print Assumptions C13_field_add.
Print Assumptions C13_field_subtract.
Print Assumptions C13_field_negate.
Print Assumptions C14_invert.
Print Assumptions C15_encode_canonical.
Print Assumptions C15_equals.
Print Assumptions C15_is_nonzero.
Print Assumptions C15_is_negative.
Print Assumptions C15_arbitrary_limbs_refuted.
Print Assumptions C16_decode.
Print Assumptions C16_decode_encode.
Print Assumptions C17_sqrt.
Print Assumptions C17_sqrt_zero.
Print Assumptions C18_modQ.
Print Assumptions C19_mulAdd.
Print Assumptions C16_decode_long.
Print Assumptions C16_decode_short.
Print Assumptions C18_modQ_bytes.
Print Assumptions C18_modQ_short.
Print Assumptions C19_mulAdd_bytes.
Print Assumptions C18_modQ_any.
Print Assumptions C19_mulAdd_any.
Print Assumptions C19_mulAdd_short.
