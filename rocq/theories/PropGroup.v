(** Properties C20 - C30: the group layer.  Statements; the proofs are in [Curve], [BasePoint],
    [GroupProofs], [PointCodec], [GroupEq], [ScalarMul], [SlideProofs], [PropGroupLemmas].
    [rep g P] / [repc c g P] (file GroupSpec): the group element g, in coordinate system c,
    represents the curve point P and its limbs are within the bounds documented in the code. *)
From Coq Require Import List ZArith Lia Bool.
From Verif Require Import GoBase FieldModel FieldSpec Fp Curve Primality Tables BaseCert BasePoint GroupModel
  GroupSpec FieldPow GroupProofs TableProofs PointCodec GroupEq ScalarMul SlideProofs PropGroupLemmas GroupMisuse.
Import ListNotations.
Open Scope Z_scope.

(** C20.  No exceptional cases: P and Q are arbitrary points. *)
Theorem C20_add : forall g h P Q, repc P3 g P -> repc CACHED h Q ->
  exists r, g_add g h = Ok r /\ repc P1xP1 r (padd P Q).
Proof. exact g_add_ok. Qed.
Theorem C20_subtract : forall g h P Q, repc P3 g P -> repc CACHED h Q ->
  exists r, g_subtract g h = Ok r /\ repc P1xP1 r (psub P Q).
Proof. exact g_subtract_ok. Qed.
Theorem C20_precomputed_add : forall g h P Q, repc P3 g P -> repc PRECOMPUTED h Q ->
  exists r, g_precomputedAdd g h = Ok r /\ repc P1xP1 r (padd P Q).
Proof. exact g_precomputedAdd_ok. Qed.
Theorem C20_precomputed_subtract : forall g h P Q, repc P3 g P -> repc PRECOMPUTED h Q ->
  exists r, g_precomputedSubtract g h = Ok r /\ repc P1xP1 r (psub P Q).
Proof. exact g_precomputedSubtract_ok. Qed.
Theorem C20_double_P2 : forall g P, repc P2 g P ->
  exists r, g_dbl g = Ok r /\ repc P1xP1 r (padd P P).
Proof. exact g_dbl_P2. Qed.
Theorem C20_double_P3 : forall g P, repc P3 g P ->
  exists r, g_dbl g = Ok r /\ repc P1xP1 r (padd P P).
Proof. exact g_dbl_P3. Qed.
Theorem C20_negate : forall g P, repc P3 g P ->
  exists r, g_negate g = Ok r /\ repc P3 r (pneg P).
Proof. exact g_negate_ok. Qed.
(** elements in any other coordinate system: what happens *)
Theorem C20_other_systems : forall g h,
  (g_cs g <> P3 \/ g_cs h <> CACHED -> g_add g h = Panic /\ g_subtract g h = Panic) /\
  (g_cs g <> P3 \/ g_cs h <> PRECOMPUTED -> g_precomputedSubtract g h = Panic) /\
  (g_cs g <> P3 -> g_precomputedAdd g h = Err ErrUnsupported) /\
  (g_cs g = P3 -> g_cs h <> PRECOMPUTED -> g_precomputedAdd g h = Err ErrIllegalArgument) /\
  (g_cs g <> P2 -> g_cs g <> P3 -> g_dbl g = Panic) /\
  (g_cs g <> P3 -> g_negate g = Err ErrUnsupported).
Proof. exact misuse. Qed.
(** a represented point is determined by the element (so the results above are not ambiguous) *)
Theorem C20_represented_point_unique : forall g P Q, g_cs g <> AFFINE -> rep g P -> rep g Q -> P = Q.
Proof. exact rep_unique. Qed.
(** non-vacuity: every curve point has a representation in each of the five systems *)
Example C20_nonvacuous : forall P, (exists g, repc P2 g P) /\ (exists g, repc P3 g P) /\
  (exists g, repc P1xP1 g P) /\ (exists g, repc PRECOMPUTED g P) /\ (exists g, repc CACHED g P).
Proof. exact every_point. Qed.

(** C21.  [padd] is the Edwards addition on pairs satisfying -x^2+y^2 = 1+d*x^2*y^2. *)
Theorem C21_addition_law : forall P Q,
  let x1 := px P in let y1 := py P in let x2 := px Q in let y2 := py Q in
  let k := (Fd * (x1 * x2) * (y1 * y2))%F in
  (1 + k <> 0)%F /\ (1 - k <> 0)%F /\
  px (padd P Q) = ((x1 * y2 + x2 * y1) / (1 + k))%F /\
  py (padd P Q) = ((y1 * y2 + x1 * x2) / (1 - k))%F.
Proof. exact padd_coords. Qed.
Theorem C21_assoc : forall P Q R, padd (padd P Q) R = padd P (padd Q R).
Proof. exact padd_assoc. Qed.
Theorem C21_comm : forall P Q, padd P Q = padd Q P.
Proof. exact padd_comm. Qed.
Theorem C21_neutral : forall P, padd pzero P = P.
Proof. exact padd_0_l. Qed.
Theorem C21_inverse : forall P, padd P (pneg P) = pzero.
Proof. exact padd_neg. Qed.
Theorem C21_order_of_B : forall n, zmul n Bpt = pzero <-> (q25519 | n).
Proof. exact order_B_iff. Qed.
Theorem C21_p_q_prime : Znumtheory.prime p25519 /\ Znumtheory.prime q25519 /\
  p25519 = 2 ^ 255 - 19 /\ q25519 = 2 ^ 252 + 27742317777372353535851937790883648493.
Proof. exact (conj p_prime (conj prime_q25519 (conj eq_refl eq_refl))). Qed.
Example C21_nonvacuous : Bpt <> pzero /\ padd Bpt Bpt <> pzero.
Proof. exact B_not_zero. Qed.

(** C22.  [le_val b = y + 2^255 * (parity of x)] fixes the 32 bytes. *)
Theorem C22_encode_decode : forall g P, rep g P -> g_cs g = P2 \/ g_cs g = P3 \/ g_cs g = P1xP1 ->
  exists b h, g_encode g = Ok b /\ length b = 32%nat /\ wf_bytes b /\
    le_val b = val (py P) + (if Z.odd (val (px P)) then 2 ^ 255 else 0) /\
    g_decode b = Ok h /\ g_cs h = P3 /\ rep h P.
Proof. exact encode_roundtrip. Qed.
Theorem C22_encode_injective : forall g h P Q b, rep g P -> rep h Q ->
  g_cs g = P2 \/ g_cs g = P3 \/ g_cs g = P1xP1 -> g_cs h = P2 \/ g_cs h = P3 \/ g_cs h = P1xP1 ->
  g_encode g = Ok b -> (g_encode h = Ok b <-> P = Q).
Proof. exact encode_same. Qed.
(** the other systems cannot be encoded: *)
Theorem C22_encode_other_panics : forall g,
  g_cs g = AFFINE \/ g_cs g = PRECOMPUTED \/ g_cs g = CACHED -> g_encode g = Panic.
Proof. exact encode_other. Qed.
Example C22_nonvacuous : exists g, g_decode base_bytes = Ok g /\ repc P3 g Bpt.
Proof. exact base_P3. Qed.

(** C23. *)
Theorem C23_decode : forall raw, wf_bytes raw -> length raw = 32%nat ->
  ((exists P, py P = y255 raw) -> exists g P, g_decode raw = Ok g /\ repc P3 g P /\ py P = y255 raw /\
      (px P <> F0 -> Z.odd (val (px P)) = sign255 raw) /\
      (g_encode g = Ok raw <->
        le_val raw mod 2 ^ 255 < p25519 /\
        (2 ^ 255 <= le_val raw -> y255 raw <> F1 /\ y255 raw <> (- F1)%F))) /\
  ((forall P, py P <> y255 raw) -> g_decode raw = Err ErrNotOnCurve).
Proof. exact decode_exact. Qed.
Theorem C23_decode_64_bytes : forall raw, wf_bytes raw -> length raw = 64%nat ->
  g_decode raw = g_decode (firstn 32 raw).
Proof. exact decode_64. Qed.
Theorem C23_decode_other_length : forall raw, length raw <> 32%nat -> length raw <> 64%nat ->
  g_decode raw = Err ErrEncodedField.
Proof. exact g_decode_bad_length. Qed.
(** "rejects non-canonical strings" is false: *)
Theorem C23_rejects_noncanonical_refuted :
  ~ (forall raw g, wf_bytes raw -> length raw = 32%nat -> g_decode raw = Ok g -> g_encode g = Ok raw).
Proof. exact noncanonical_refuted. Qed.
(** non-vacuity of both halves: y = 4/5 is on the curve, y = 2 is not *)
Example C23_nonvacuous : (exists P, py P = y255 base_bytes) /\
  (forall P, py P <> y255 (le_bytes 32 2)).
Proof. exact decode_examples. Qed.

(** C24. *)
Theorem C24_equals : forall r g P Q, rep r P -> rep g Q ->
  (g_cs r, g_cs g) = (P2, P2) \/ (g_cs r, g_cs g) = (P2, P3) \/ (g_cs r, g_cs g) = (P2, P1xP1) \/
  (g_cs r, g_cs g) = (P3, P3) \/ (g_cs r, g_cs g) = (P3, P1xP1) \/ (g_cs r, g_cs g) = (P1xP1, P1xP1) \/
  (g_cs r, g_cs g) = (CACHED, CACHED) \/ (g_cs r, g_cs g) = (CACHED, P3) \/
  (g_cs r, g_cs g) = (PRECOMPUTED, PRECOMPUTED) ->
  (P = Q -> g_equals r g = Ok true) /\ (P <> Q -> g_equals r g = Ok false).
Proof. exact equals_same. Qed.
(** whatever cannot be converted compares unequal, even equal points; hence no symmetry: *)
Theorem C24_equals_inconvertible : forall r g,
  convertible (g_cs g) (g_cs r) = false -> g_cs r <> AFFINE -> g_equals r g = Ok false.
Proof. exact equals_false_else. Qed.
Theorem C24_equals_affine : forall r g, g_cs r = AFFINE ->
  (g_cs g = AFFINE -> g_equals r g = Panic) /\ (g_cs g <> AFFINE -> g_equals r g = Ok false).
Proof. exact equals_affine. Qed.
Theorem C24_equals_symmetric_refuted :
  ~ (forall r g P, rep r P -> rep g P -> g_cs r = P3 -> g_cs g = P2 -> g_equals r g = Ok true) /\
  exists r g P, rep r P /\ rep g P /\ g_equals r g = Ok false /\ g_equals g r = Ok true.
Proof. exact equals_asymmetric. Qed.
Example C24_nonvacuous : exists r g, rep r Bpt /\ rep g Bpt /\ g_cs r = P2 /\ g_cs g = P1xP1 /\ Bpt <> pzero.
Proof. exact equals_example. Qed.

(** C25.  [convertible a b]: (a,b) is one of P2->P2, P3->P2, P3->P3, P3->CACHED, P1xP1->P2,
    P1xP1->P3, P1xP1->P1xP1, PRECOMPUTED->PRECOMPUTED, CACHED->CACHED. *)
Theorem C25_convertible_pairs : forall a b, convertible a b = true <->
  In (a, b) [(P2, P2); (P3, P2); (P3, P3); (P3, CACHED); (P1xP1, P2); (P1xP1, P3); (P1xP1, P1xP1);
             (PRECOMPUTED, PRECOMPUTED); (CACHED, CACHED)].
Proof. exact convertible_pairs. Qed.
Theorem C25_convert : forall g P n, rep g P -> convertible (g_cs g) n = true ->
  exists r, to_cs g n = Ok r /\ repc n r P.
Proof. exact to_cs_ok. Qed.
Theorem C25_convert_panics : forall g n, convertible (g_cs g) n = false -> to_cs g n = Panic.
Proof. exact to_cs_panic. Qed.
Example C25_nonvacuous : forall P, exists g, repc P1xP1 g P /\ convertible (g_cs g) P3 = true.
Proof. exact convert_example. Qed.

(** C26. *)
Theorem C26_scalar_multiply : forall c P a, repc P3 c P ->
  wf_bytes a -> length a = 32%nat -> le_val a < 2 ^ 255 ->
  exists g r, g_precompute_single (new_ge c) = Ok g /\ g_scalarMultiply g a = Ok r /\
    repc P3 r (zmul (le_val a) P).
Proof. exact scalar_mult_precomputed. Qed.
Theorem C26_base_scalar_multiply : forall a, wf_bytes a -> length a = 32%nat -> le_val a < 2 ^ 255 ->
  exists g r, get_base_point = Ok g /\ g_scalarMultiply g a = Ok r /\ repc P3 r (zmul (le_val a) Bpt).
Proof. exact scalar_mult_base. Qed.
(** the bound 2^255 is needed: with 32 bytes 0xff the result is another point *)
Theorem C26_all_scalars_refuted : ~ (forall a g, wf_bytes a -> length a = 32%nat -> get_base_point = Ok g ->
  exists r, g_scalarMultiply g a = Ok r /\ repc P3 r (zmul (le_val a) Bpt)).
Proof. exact scalar_mult_large. Qed.
Theorem C26_short_scalar_panics : forall g a, (length a < 32)%nat -> g_scalarMultiply g a = Panic.
Proof. exact g_scalarMultiply_short. Qed.
Example C26_nonvacuous : exists c a, repc P3 c Bpt /\ wf_bytes a /\ length a = 32%nat /\
  q25519 < le_val a < 2 ^ 255 /\ zmul (le_val a) Bpt <> pzero.
Proof. exact scalar_mult_example. Qed.

(** C27: the documented behaviour is false; every element without a table panics. *)
Theorem C27_on_demand_refuted :
  ~ (forall c P a, repc P3 c P -> wf_bytes a -> length a = 32%nat -> le_val a < 2 ^ 255 ->
      exists r, g_scalarMultiply (new_ge c) a = Ok r /\ repc P3 r (zmul (le_val a) P)).
Proof. exact no_table_refuted. Qed.
Theorem C27_without_table_panics : forall g a, single g = None -> g_scalarMultiply g a = Panic.
Proof. exact no_table. Qed.

Example C27_nonvacuous : forall P, exists c, repc P3 c P /\ single (new_ge c) = None.
Proof. exact no_table_example. Qed.

(** C28. *)
Theorem C28_double_scalar_multiply : forall c P a b, repc P3 c P ->
  wf_bytes a -> length a = 32%nat -> wf_bytes b -> length b = 32%nat ->
  le_val a <= 2 ^ 255 -> le_val b <= 2 ^ 255 ->
  exists B A r, get_base_point = Ok B /\ g_precompute_double (new_ge c) = Ok A /\
    g_doubleScalarMultiply B A a b = Ok r /\
    repc P2 r (psub (zmul (le_val b) Bpt) (zmul (le_val a) P)).
Proof. exact double_mult_base. Qed.
(** beyond 2^255 it never panics, and computes with scalars correct modulo 2^256 *)
Theorem C28_double_scalar_multiply_any : forall B A lB lA PB PA a b,
  double B = Some lB -> double A = Some lA -> double_table lB PB -> double_table lA PA ->
  wf_bytes a -> length a = 32%nat -> wf_bytes b -> length b = 32%nat ->
  exists r va vb, g_doubleScalarMultiply B A a b = Ok r /\
  va mod 2 ^ 256 = le_val a /\ vb mod 2 ^ 256 = le_val b /\
  (le_val a <= 2 ^ 255 -> va = le_val a) /\ (le_val b <= 2 ^ 255 -> vb = le_val b) /\
  repc P2 r (psub (zmul vb PB) (zmul va PA)).
Proof. exact double_mult_gen. Qed.
Example C28_nonvacuous : exists c a, repc P3 c Bpt /\ wf_bytes a /\ length a = 32%nat /\
  q25519 < le_val a < 2 ^ 255 /\ zmul (le_val a) Bpt <> pzero.
Proof. exact scalar_mult_example. Qed.

(** C29.  [single_table rows P]: entry (i,j) represents (j+1)*256^i*P; [double_table l P]: entry j
    represents (2j+1)*P. *)
Theorem C29_single_table : single_table base_single Bpt.
Proof. exact base_single_ok. Qed.
Theorem C29_double_table : double_table base_double Bpt.
Proof. exact base_double_ok. Qed.
Theorem C29_base_point : exists c,
  get_base_point = Ok (Ge c (Some base_single) (Some base_double)) /\ repc P3 c Bpt.
Proof. exact get_base_point_ok. Qed.
Theorem C29_base_point_coords : (inF 5 * py Bpt = inF 4)%F /\ Z.odd (val (px Bpt)) = false.
Proof. exact (conj B_y B_x_even). Qed.
Theorem C29_constants : (inF 121666 * rF go_d = - inF 121665)%F /\ rF go_d2 = (inF 2 * rF go_d)%F /\
  (rF fe_I * rF fe_I = - F1)%F /\ rF go_d = Fd.
Proof. exact constants_ok. Qed.

(** C30. *)
Theorem C30_satisfies : forall g, g_cs g = P2 \/ g_cs g = P3 ->
  bnd 330 (gX g) -> bnd 330 (gY g) -> bnd 330 (gZ g) ->
  exists b, g_satisfies g = Ok b /\ (b = true <->
    let X := rF (gX g) in let Y := rF (gY g) in let Z := rF (gZ g) in
    Z <> F0 /\ ((Y / Z) * (Y / Z) - (X / Z) * (X / Z) = 1 + Fd * ((X / Z) * (X / Z)) * ((Y / Z) * (Y / Z)))%F).
Proof. exact satisfies_iff. Qed.
Theorem C30_satisfied_by_results : forall g P, rep g P -> g_cs g = P2 \/ g_cs g = P3 \/ g_cs g = P1xP1 ->
  g_satisfies g = Ok true.
Proof. exact satisfies_rep. Qed.
Theorem C30_other_systems_panic : forall g,
  g_cs g = AFFINE \/ g_cs g = PRECOMPUTED \/ g_cs g = CACHED -> g_satisfies g = Panic.
Proof. exact satisfies_other. Qed.
Example C30_nonvacuous : exists g, g_cs g = P3 /\ bnd 330 (gX g) /\ bnd 330 (gY g) /\ bnd 330 (gZ g) /\
  g_satisfies g = Ok false.
Proof. exact satisfies_false_example. Qed.
Print Assumptions C20_add.
Print Assumptions C20_subtract.
Print Assumptions C20_precomputed_add.
Print Assumptions C20_precomputed_subtract.
Print Assumptions C20_double_P2.
Print Assumptions C20_double_P3.
Print Assumptions C20_negate.
Print Assumptions C20_other_systems.
Print Assumptions C20_represented_point_unique.
Print Assumptions C21_addition_law.
Print Assumptions C21_assoc.
Print Assumptions C21_comm.
Print Assumptions C21_neutral.
Print Assumptions C21_inverse.
Print Assumptions C21_order_of_B.
Print Assumptions C21_p_q_prime.
Print Assumptions C22_encode_decode.
Print Assumptions C22_encode_injective.
Print Assumptions C22_encode_other_panics.
Print Assumptions C23_decode.
Print Assumptions C23_decode_64_bytes.
Print Assumptions C23_decode_other_length.
Print Assumptions C23_rejects_noncanonical_refuted.
Print Assumptions C24_equals.
Print Assumptions C24_equals_inconvertible.
Print Assumptions C24_equals_affine.
Print Assumptions C24_equals_symmetric_refuted.
Print Assumptions C25_convertible_pairs.
Print Assumptions C25_convert.
Print Assumptions C25_convert_panics.
Print Assumptions C26_scalar_multiply.
Print Assumptions C26_base_scalar_multiply.
Print Assumptions C26_all_scalars_refuted.
Print Assumptions C26_short_scalar_panics.
Print Assumptions C27_on_demand_refuted.
Print Assumptions C27_without_table_panics.
Print Assumptions C28_double_scalar_multiply.
Print Assumptions C28_double_scalar_multiply_any.
Print Assumptions C29_single_table.
Print Assumptions C29_double_table.
Print Assumptions C29_base_point.
Print Assumptions C29_base_point_coords.
Print Assumptions C29_constants.
Print Assumptions C30_satisfies.
Print Assumptions C30_satisfied_by_results.
Print Assumptions C30_other_systems_panic.
