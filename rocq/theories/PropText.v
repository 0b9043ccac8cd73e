(** Properties C62 - C65: text and comparison of elements, [Select], histories of precomputations, the
    BouncyCastle classes.  Statements; the proofs are in [PropTextLemmas]; [hex32], [point_text],
    [digit], [answers] are in [TextSpec].  Strings are lists of character codes. *)
From Coq Require Import List ZArith Bool String.
From Verif Require Import GoBase FieldModel FieldSpec GroupModel Fp Curve GroupSpec BasePoint ApiModel
  PropFieldLemmas TextModel TextSpec PropTextLemmas.
Import ListNotations.
Open Scope Z_scope.

(** C62.  Field elements: the text is the canonical value, so equal text is equality modulo p. *)
Theorem C62_field_text : forall f, bnd 1000 f ->
  fe_string f = hex32 (feval f mod p25519) /\ List.length (fe_string f) = 64%nat.
Proof. exact field_text. Qed.
Theorem C62_field_text_same : forall f g, bnd 1000 f -> bnd 1000 g ->
  (fe_string f = fe_string g <-> eqp (feval f) (feval g)).
Proof. exact field_text_same. Qed.
(** Encoded field elements: which byte strings are accepted; equality and text compare the bytes; zero and
    parity are those of the integer, not of the field element. *)
Theorem C62_encoded_field_new : forall raw,
  (List.length raw = 32%nat \/ List.length raw = 64%nat -> exists x, efe_new raw = Ok x) /\
  (List.length raw <> 32%nat -> List.length raw <> 64%nat -> efe_new raw = Err ErrEncodedField).
Proof. exact efe_new_exact. Qed.
Theorem C62_encoded_field_compare : forall a b x y, wf_bytes a -> wf_bytes b -> efe_new a = Ok x -> efe_new b = Ok y ->
  (efe_equals x y = true <-> a = b) /\ (efe_string x = efe_string y <-> a = b).
Proof. exact efe_compare. Qed.
Theorem C62_encoded_field_value : forall raw x, wf_bytes raw -> efe_new raw = Ok x ->
  (efe_nonzero x = true <-> le_val raw <> 0) /\ efe_negative x = Ok (Z.odd (le_val raw)).
Proof. exact efe_facts. Qed.
Theorem C62_encoded_nonzero_but_decodes_to_zero : exists raw x f, wf_bytes raw /\ efe_new raw = Ok x /\
  efe_nonzero x = true /\ efe_decode x = Ok f /\ eqp (feval f) 0.
Proof. exact nonzero_but_zero. Qed.
(** Encoded group elements: the affine coordinates and the text of the point, or the text of the error. *)
Theorem C62_affine_coordinates : forall raw P, wf_bytes raw -> List.length raw = 32%nat \/ List.length raw = 64%nat ->
  denotes raw P -> exists x y, affine_x raw = Ok x /\ affine_y raw = Ok y /\ rF x = px P /\ rF y = py P /\
    bnd 110 x /\ bnd 110 y.
Proof. exact affine_ok. Qed.
Theorem C62_encoded_group_text : forall raw, wf_bytes raw -> List.length raw = 32%nat \/ List.length raw = 64%nat ->
  (forall P, denotes raw P -> ege_string raw = Ok (point_text P)) /\
  ((forall P, ~ denotes raw P) -> ege_string raw = Ok (lit "not a valid Ed25519EncodedGroupElement.")).
Proof. exact group_text. Qed.
Theorem C62_encoded_group_text_length : forall raw, List.length raw <> 32%nat -> List.length raw <> 64%nat ->
  ege_string raw = Ok (lit "Invalid 2^8 bit representation.").
Proof. exact group_text_length. Qed.
Theorem C62_encoded_group_text_same : forall a b P Q, wf_bytes a -> wf_bytes b ->
  List.length a = 32%nat -> List.length b = 32%nat -> denotes a P -> denotes b Q ->
  (ege_string a = ege_string b <-> P = Q).
Proof. exact group_text_same. Qed.
(** so equal text does not mean [Equals]: *)
Theorem C62_same_text_not_equal : exists a b, wf_bytes a /\ wf_bytes b /\ List.length a = 32%nat /\ List.length b = 32%nat /\
  ege_string a = ege_string b /\ ege_string a = Ok (point_text pzero) /\ ege_equals a b = false.
Proof. exact group_text_not_equal. Qed.
(** Group elements: [String] panics without T; otherwise it is the text of the coordinates; equal text means the
    same point, but equal points can have different texts. *)
Theorem C62_group_text_panics : forall g, gT g = None -> g_string g = Panic.
Proof. exact no_T_text. Qed.
Theorem C62_group_text : forall g T, bnd 1000 (gX g) -> bnd 1000 (gY g) -> bnd 1000 (gZ g) -> bnd 1000 T -> gT g = Some T ->
  g_string g = Ok (lit "X=" ++ hex32 (val (rF (gX g))) ++ [10] ++ lit "Y=" ++ hex32 (val (rF (gY g))) ++ [10] ++
    lit "Z=" ++ hex32 (val (rF (gZ g))) ++ [10] ++ lit "T=" ++ hex32 (val (rF T)) ++ [10]).
Proof. exact coords_text. Qed.
Theorem C62_group_text_point : forall g h P Q s, repc P3 g P -> repc P3 h Q ->
  g_string g = Ok s -> g_string h = Ok s -> P = Q.
Proof. exact text_point. Qed.
Theorem C62_equal_points_different_text : exists g h s t, repc P3 g pzero /\ repc P3 h pzero /\
  g_string g = Ok s /\ g_string h = Ok t /\ s <> t /\ g_equals g h = Ok true.
Proof. exact text_differs. Qed.
Example C62_nonvacuous : bnd 1000 ex_limbs /\ (exists raw, wf_bytes raw /\ List.length raw = 32%nat /\ denotes raw Bpt) /\
  (exists raw, wf_bytes raw /\ List.length raw = 32%nat /\ forall P, ~ denotes raw P) /\
  (exists g, repc P3 g Bpt /\ exists T, gT g = Some T).
Proof. exact ex_text. Qed.

(** C63.  [Select] uses b only modulo 512: with -8 .. 8 (modulo 512) it returns that multiple of 256^pos times
    the point, with anything else the neutral element. *)
Theorem C63_select : forall g rows P pos b, single g = Some rows -> single_table rows P -> 0 <= pos < 32 ->
  exists r, select_int g pos b = Ok r /\ repc PRECOMPUTED r (zmul (digit b * 256 ^ pos) P).
Proof. exact select_exact. Qed.
Theorem C63_select_panics : forall g pos b,
  pos < 0 \/ single g = None \/ (exists rows, single g = Some rows /\ Z.of_nat (List.length rows) <= pos) ->
  select_int g pos b = Panic.
Proof. exact select_panics. Qed.
(** the model used in scalarMultiply, without wrap-around, is the same function *)
Theorem C63_select_model : forall g pos b, select_int g (Z.of_nat pos) b = g_select g pos b.
Proof. exact select_int_same. Qed.
(** the two comparisons it is made of look at eight bits and at one bit *)
Theorem C63_byte_equality : forall b c, is_byte_eq_ct b c = if b mod 256 =? c mod 256 then 1 else 0.
Proof. exact byte_eq_exact. Qed.
Theorem C63_negative : forall b, is_negative_ct b = (b / 256) mod 2.
Proof. exact negative_exact. Qed.
Theorem C63_every_multiple_refuted : ~ (forall g rows P pos b r, single g = Some rows -> single_table rows P ->
  0 <= pos < 32 -> 0 <= b < 1000 -> select_int g pos b = Ok r -> repc PRECOMPUTED r (zmul (b * 256 ^ pos) P)).
Proof. exact select_all_refuted. Qed.
Example C63_nonvacuous : (exists g rows, single g = Some rows /\ single_table rows Bpt) /\
  digit 7 = 7 /\ digit (-5) = -5 /\ digit 504 = -8 /\ digit 9 = 0 /\ digit (-2 ^ 63) = 0.
Proof. exact ex_select. Qed.

(** C64.  Whatever sequence of precomputations is applied to a new P3 element: none fails, the coordinates stay,
    each kind of table is there and right if and only if it was asked for. *)
Theorem C64_history : forall c P, repc P3 c P -> forall cs, exists g, prun (new_ge c) cs = Ok g /\ core g = c /\
  (In PSingle cs -> exists rows, single g = Some rows /\ single_table rows P) /\
  (~ In PSingle cs -> single g = None) /\
  (In PDouble cs -> exists l, double g = Some l /\ double_table l P) /\
  (~ In PDouble cs -> double g = None) /\
  (g_is_precomputed_double g = true <-> In PDouble cs).
Proof. exact history. Qed.
(** order and repetition do not matter *)
Theorem C64_order : forall c P, repc P3 c P -> forall cs ds, (forall x, In x cs <-> In x ds) ->
  prun (new_ge c) cs = prun (new_ge c) ds.
Proof. exact history_order. Qed.
(** an element in another coordinate system, or without T, cannot be precomputed *)
Theorem C64_other_systems_panic : forall c x, g_cs c <> P3 \/ gT c = None -> pstep (new_ge c) x = Panic.
Proof. exact not_P3. Qed.
(** a copy of an element without tables says it has one, and never gets one *)
Theorem C64_copy_is_not_precomputed : forall g, single g = None -> exists g', g_copy g = Ok g' /\ core g' = core g /\
  g_is_precomputed_double g' = true /\ pstep g' PSingle = Ok g' /\ (forall pos b, select_int g' pos b = Panic) /\
  (forall a, g_scalarMultiply g' a = Panic).
Proof. exact copy_tables. Qed.
Example C64_nonvacuous : exists c, repc P3 c Bpt /\ single (new_ge c) = None.
Proof. exact ex_history. Qed.

(** C65.  Whatever calls are made on a BufferedBlockCipher, with whatever key: GetOutputSize answers 0, doFinal
    copies nothing, processBytes overwrites its input with the contents of its output buffer. *)
Theorem C65_no_encryption : forall cs, Forall2 answers cs (bc_run bc_new cs).
Proof. exact bc_answers. Qed.
Example C65_nonvacuous : bc_run bc_new [BInit true [1; 2] [3]; BProcess [10; 11; 12] 0 2 [7; 8] 0; BFinal [5; 6] 0; BSize 40] =
  [RNone; RProcess 2 [7; 8; 12] [7; 8]; RFinal 0 [5; 6]; RInt 0].
Proof. reflexivity. Qed.

Print Assumptions C62_field_text.
Print Assumptions C62_field_text_same.
Print Assumptions C62_encoded_field_new.
Print Assumptions C62_encoded_field_compare.
Print Assumptions C62_encoded_field_value.
Print Assumptions C62_encoded_nonzero_but_decodes_to_zero.
Print Assumptions C62_affine_coordinates.
Print Assumptions C62_encoded_group_text.
Print Assumptions C62_encoded_group_text_length.
Print Assumptions C62_encoded_group_text_same.
Print Assumptions C62_same_text_not_equal.
Print Assumptions C62_group_text_panics.
Print Assumptions C62_group_text.
Print Assumptions C62_group_text_point.
Print Assumptions C62_equal_points_different_text.
Print Assumptions C63_select.
Print Assumptions C63_select_panics.
Print Assumptions C63_select_model.
Print Assumptions C63_byte_equality.
Print Assumptions C63_negative.
Print Assumptions C63_every_multiple_refuted.
Print Assumptions C64_history.
Print Assumptions C64_order.
Print Assumptions C64_other_systems_panic.
Print Assumptions C64_copy_is_not_precomputed.
Print Assumptions C65_no_encryption.
