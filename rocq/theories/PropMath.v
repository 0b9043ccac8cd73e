(** Properties C45 - C48: MathUtils (math.go).  Statements; the proofs are in [MathProofs], [MathAdd],
    [MathMul], [MathDecode], [PropMathLemmas].  [rep], [repc], [denotes], [y255] are those of [GroupSpec];
    [safe], [safe_mul], [block] are in [MathSpec]. *)
From Coq Require Import List ZArith Lia Bool.
From Verif Require Import GoBase FieldModel FieldSpec ScalarModel Fp Curve BasePoint GroupModel GroupSpec ApiModel
  MathModel MathSpec MathMul MathDecode PropMathLemmas MathRandom.
Import ListNotations.
Open Scope Z_scope.

(** C45.  AddGroupElements works on copies of a big.Int that share their digits, so it is right
    only for some operands. *)
Theorem C45_add : forall g1 g2 P Q, rep g1 P -> rep g2 Q ->
  g_cs g1 = P2 \/ g_cs g1 = P3 -> g_cs g2 = P2 \/ g_cs g2 = P3 ->
  px P = F0 \/ (2 ^ 64 <= val (px P) /\ 2 ^ 64 <= val (py Q)) ->
  exists r, math_Add g1 g2 = Ok r /\ repc P3 r (padd P Q).
Proof. exact add_ok. Qed.
Theorem C45_double : forall g P, rep g P -> g_cs g = P2 \/ g_cs g = P3 -> safe P P ->
  exists r, math_Double g = Ok r /\ repc P3 r (padd P P).
Proof. exact double_ok. Qed.
(** adding the neutral element on the right: both coordinates become y, which is no curve point *)
Theorem C45_add_neutral_wrong : forall g1 g2 P, rep g1 P -> rep g2 pzero ->
  g_cs g1 = P2 \/ g_cs g1 = P3 -> g_cs g2 = P2 \/ g_cs g2 = P3 ->
  2 ^ 192 <= val (px P) -> 2 ^ 128 <= val (py P) ->
  exists r, math_Add g1 g2 = Ok r /\ g_cs r = P3 /\ rF (gX r) = py P /\ rF (gY r) = py P /\ rF (gZ r) = F1 /\
    forall Q, ~ rep r Q.
Proof. exact add_neutral_wrong. Qed.
Theorem C45_add_other_systems : forall g1 g2,
  (g_cs g1 <> P2 /\ g_cs g1 <> P3) \/ (g_cs g2 <> P2 /\ g_cs g2 <> P3) -> math_Add g1 g2 = Panic.
Proof. exact add_other. Qed.
Theorem C45_negate : forall g P, repc P3 g P -> exists r, math_Negate g = Ok r /\ repc P3 r (pneg P).
Proof. exact math_Negate_ok. Qed.
Theorem C45_negate_other_systems : forall g, g_cs g <> P3 -> math_Negate g = Panic.
Proof. exact negate_other. Qed.
Theorem C45_scalar_multiply : forall g f P, rep g P -> g_cs g = P2 \/ g_cs g = P3 -> bnd 1000 f ->
  safe_mul (feval f mod p25519) P ->
  exists r, math_ScalarMultiply g f = Ok r /\ repc P3 r (zmul (feval f mod p25519) P).
Proof. exact mul_ok. Qed.
Theorem C45_double_scalar_multiply : forall g1 f1 g2 f2 P Q, rep g1 P -> rep g2 Q ->
  g_cs g1 = P2 \/ g_cs g1 = P3 -> g_cs g2 = P2 \/ g_cs g2 = P3 -> bnd 1000 f1 -> bnd 1000 f2 ->
  let m := feval f1 mod p25519 in let n := feval f2 mod p25519 in
  safe_mul m P -> safe_mul n Q -> safe (zmul m P) (zmul n Q) ->
  exists r, math_doubleScalarMultiply g1 f1 g2 f2 = Ok r /\ repc P3 r (psub (zmul m P) (zmul n Q)).
Proof. exact double_mul_ok. Qed.
Theorem C45_reduce : forall b, wf_bytes b ->
  math_ReduceModGroupOrder b = Ok (le_bytes 32 (le_val b mod q25519)) /\
  (length b = 64%nat -> math_ReduceModGroupOrder b = sc_modQ b).
Proof. exact reduce_agrees. Qed.
Theorem C45_multiply_add : forall a b c, wf_bytes a -> wf_bytes b -> wf_bytes c ->
  math_multiplyAndAdd a b c = Ok (le_bytes 32 ((le_val a * le_val b + le_val c) mod q25519)) /\
  (length a = 32%nat -> length b = 32%nat -> length c = 32%nat -> math_multiplyAndAdd a b c = sc_mulAdd a b c).
Proof. exact mulAdd_agrees. Qed.
Example C45_nonvacuous : safe Bpt Bpt /\ safe_mul 7 Bpt /\ 2 ^ 192 <= val (px Bpt) /\ 2 ^ 128 <= val (py Bpt).
Proof. exact ex_safe. Qed.

(** C46.  Of all 32-byte strings, those with y = 1 and y = -1 are decoded; for all others the result
    is an error or an element that is no curve point; encodings of points with x, y <> 0 are refused. *)
Theorem C46_toGroupElement : forall raw, wf_bytes raw -> length raw = 32%nat ->
  (y255 raw = F1 \/ y255 raw = (- F1)%F ->
    exists r, snd (math_ToGroupElement raw) = Ok r /\ forall P, denotes raw P -> repc P3 r P) /\
  (y255 raw <> F1 -> y255 raw <> (- F1)%F ->
    snd (math_ToGroupElement raw) = Err ErrNotGroupElement \/
    exists r, snd (math_ToGroupElement raw) = Ok r /\ forall P, ~ rep r P).
Proof. exact toGroup_exact. Qed.
Theorem C46_rejects_points : forall raw P, wf_bytes raw -> length raw = 32%nat -> denotes raw P ->
  px P <> F0 -> py P <> F0 -> snd (math_ToGroupElement raw) = Err ErrNotGroupElement.
Proof. exact toGroup_rejects. Qed.
(** the caller's slice loses its top bit *)
Theorem C46_argument : forall raw, wf_bytes raw -> length raw = 32%nat ->
  let a := fst (math_ToGroupElement raw) in
  length a = 32%nat /\ firstn 31 a = firstn 31 raw /\ le_val a = le_val raw mod 2 ^ 255.
Proof. exact toGroup_arg. Qed.
Theorem C46_short : forall raw, (length raw < 32)%nat -> math_ToGroupElement raw = (raw, Panic).
Proof. exact toGroup_short. Qed.
Example C46_base_point_rejected : snd (math_ToGroupElement base_bytes) = Err ErrNotGroupElement.
Proof. exact toGroup_base. Qed.
Example C46_garbage_returned : exists r, snd (math_ToGroupElement (repeat 0 32)) = Ok r /\ forall P, ~ rep r P.
Proof. exact toGroup_zero. Qed.
Example C46_nonvacuous : y255 (le_bytes 32 1) = F1 /\ length (le_bytes 32 1) = 32%nat /\ denotes (le_bytes 32 1) pzero.
Proof. exact ex_toGroup. Qed.

(** C47. *)
Theorem C47_toRepresentation : forall g P c, rep g P -> g_cs g <> PRECOMPUTED ->
  exists r, math_ToRepresentation g c = Ok r /\ repc c r P.
Proof. exact repr_ok. Qed.
(** a PRECOMPUTED source is never converted to the same point *)
Theorem C47_toRepresentation_precomputed : forall g P c, repc PRECOMPUTED g P ->
  (px P = F0 \/ py P = F0 -> math_ToRepresentation g c = Panic) /\
  (px P <> F0 -> py P <> F0 -> exists r, math_ToRepresentation g c = Ok r /\ g_cs r = c /\ ~ rep r P).
Proof. exact toRepresentation_prec. Qed.
Theorem C47_toRepresentation_nil_T : forall g c, g_cs g = P1xP1 -> gT g = None ->
  math_ToRepresentation g c = Err ErrNoTCoordinate.
Proof. exact repr_nil_T. Qed.
Example C47_nonvacuous : (exists g, repc PRECOMPUTED g Bpt) /\ (exists g, repc CACHED g Bpt) /\
  px Bpt <> F0 /\ py Bpt <> F0.
Proof. exact ex_repr. Qed.

(** C48. *)
Theorem C48_randomFieldElement : forall src, (20 <= length src)%nat ->
  math_GetRandomFieldElement src =
    Ok (Fe (2 ^ 24) (2 ^ 24) (2 ^ 24) (2 ^ 24) (2 ^ 24) (2 ^ 24) (2 ^ 24) (2 ^ 24) (2 ^ 24) (2 ^ 24), skipn 20 src).
Proof. exact randomField_ok. Qed.
Theorem C48_randomFieldElement_short : forall src, (length src < 20)%nat -> math_GetRandomFieldElement src = Panic.
Proof. exact randomField_panic. Qed.
(** the other random values do depend on the source *)
Theorem C48_randomEncodedField : forall src n, n = 32%nat \/ n = 64%nat -> wf_bytes src -> (n <= length src)%nat ->
  exists b, math_GetRandomEncodedFieldElement src n = Ok (b, skipn n src) /\ length b = n /\
    forall j, (j < n)%nat -> byte_at b j = if Nat.eqb j 31 then byte_at src 31 mod 128 else byte_at src j.
Proof. exact encoded_field_ok. Qed.
Theorem C48_randomEncodedField_panics : forall src n, (n <> 32%nat /\ n <> 64%nat) \/ (length src < n)%nat ->
  math_GetRandomEncodedFieldElement src n = Panic.
Proof. exact randomEncodedField_panic. Qed.
(** the first of the first 10^8 blocks that decodes *)
Theorem C48_randomGroupElement : forall src k P, Z.of_nat k < 10 ^ 8 -> wf_bytes src -> (32 * S k <= length src)%nat ->
  (forall j Q, (j < k)%nat -> ~ denotes (block src j) Q) -> denotes (block src k) P ->
  exists g, math_GetRandomGroupElement src = Ok (g, skipn (32 * S k) src) /\ repc P3 g P.
Proof. exact randomGroup_ok. Qed.
Theorem C48_randomEncodedGroupElement : forall src k P, Z.of_nat k < 10 ^ 8 -> wf_bytes src ->
  (32 * S k <= length src)%nat ->
  (forall j Q, (j < k)%nat -> ~ denotes (block src j) Q) -> denotes (block src k) P ->
  math_GetRandomEncodedGroupElement src = Ok (enc_point P, skipn (32 * S k) src).
Proof. exact randomEncodedGroup_ok. Qed.
(** if none of the blocks that would be tried (the first 10^8 whole ones) decodes, both calls panic; they never return an error *)
Theorem C48_randomGroupElement_panics : forall src, wf_bytes src ->
  (forall k P, Z.of_nat k < 10 ^ 8 -> (32 * S k <= length src)%nat -> ~ denotes (block src k) P) ->
  math_GetRandomGroupElement src = Panic /\ math_GetRandomEncodedGroupElement src = Panic.
Proof. exact randomGroup_panics. Qed.
Example C48_panics_nonvacuous : let src := le_bytes 32 2 ++ le_bytes 32 2 ++ repeat 7 16 in
  wf_bytes src /\ (64 < length src)%nat /\
  forall k P, Z.of_nat k < 10 ^ 8 -> (32 * S k <= length src)%nat -> ~ denotes (block src k) P.
Proof. exact ex_random_panics. Qed.
Example C48_nonvacuous : wf_bytes base_bytes /\ (32 * 1 <= length base_bytes)%nat /\
  exists P, denotes (block base_bytes 0) P.
Proof. exact ex_random. Qed.

Print Assumptions C45_add.
Print Assumptions C45_double.
Print Assumptions C45_add_neutral_wrong.
Print Assumptions C45_scalar_multiply.
Print Assumptions C45_double_scalar_multiply.
Print Assumptions C45_reduce.
Print Assumptions C45_multiply_add.
Print Assumptions C46_toGroupElement.
Print Assumptions C46_rejects_points.
Print Assumptions C46_argument.
Print Assumptions C47_toRepresentation.
Print Assumptions C47_toRepresentation_precomputed.
Print Assumptions C48_randomFieldElement.
Print Assumptions C48_randomEncodedField.
Print Assumptions C48_randomGroupElement.
Print Assumptions C48_randomGroupElement_panics.
Print Assumptions C48_randomEncodedGroupElement.
Print Assumptions C45_add_other_systems.
Print Assumptions C45_negate.
Print Assumptions C45_negate_other_systems.
Print Assumptions C46_short.
Print Assumptions C47_toRepresentation_nil_T.
Print Assumptions C48_randomFieldElement_short.
Print Assumptions C48_randomEncodedField_panics.
