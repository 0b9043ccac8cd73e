(** Property C72: group elements after panics that the caller recovered from.  Statements; the proofs are in
    [PropRecoverLemmas].  [r_run (r_new c) cs] is a new element with coordinates c after the precomputations cs, panics
    recovered, together with which of them panicked. *)
From Coq Require Import List ZArith.
From Verif Require Import GoBase FieldModel Fp Curve BasePoint GroupModel GroupSpec TextModel TextSpec RecoverModel RecoverSpec PropRecoverLemmas.
Import ListNotations.
Open Scope Z_scope.

(** On P3 elements nothing panics and the element is that of C64; Select on it is that of C63. *)
Theorem C72_P3 : forall c P, repc P3 c P -> forall cs, exists g, prun (new_ge c) cs = Ok g /\
  r_run (r_new c) cs = (of_ge g, map (fun _ => false) cs) /\
  forall pos b, r_select (of_ge g) pos b = of_plain (select_int g pos b).
Proof.
  exact (fun c P H cs => match no_panic c P H cs with ex_intro _ g (conj A B) => ex_intro _ g (conj A (conj B (select_same g))) end).
Qed.
(** On every other element the first precomputation of each kind panics and leaves a table with one entry; every later one
    returns at once as if the table were there. *)
Theorem C72_half_filled : forall c, g_cs c <> P3 \/ gT c = None -> forall cs, exists g ps, r_run (r_new c) cs = (g, ps) /\ r_core g = c /\
  (In PSingle cs -> r_single g = Some ((Some (prec_entry c) :: repeat None 7) :: repeat [] 31)) /\
  (~ In PSingle cs -> r_single g = None) /\
  (In PDouble cs -> r_double g = Some (Some (prec_entry c) :: repeat None 7)) /\
  (~ In PDouble cs -> r_double g = None) /\
  (r_is_precomputed_double g = true <-> In PDouble cs) /\
  (forall n x p, nth_error cs n = Some x -> nth_error ps n = Some p -> (p = true <-> ~ In x (firstn n cs))) /\
  length ps = length cs.
Proof. exact half_history. Qed.
(** For an element in P2 coordinates that entry is right. *)
Theorem C72_P2 : forall c P, repc P2 c P -> forall cs, In PSingle cs -> In PDouble cs ->
  exists rows t, r_single (fst (r_run (r_new c) cs)) = Some rows /\ half_table rows P /\
    r_double (fst (r_run (r_new c) cs)) = Some t /\ partial_double t P.
Proof. exact after_panic. Qed.
(** Select on such a table: at position 0 right for the digits -1, 0, 1 and an error for the others; at every other position
    the neutral element, whatever the digit. *)
Theorem C72_select : forall g rows P b, r_single g = Some rows -> half_table rows P ->
  (forall pos, 0 < pos < 32 -> exists r, r_select g pos b = ROk r /\ repc PRECOMPUTED r pzero) /\
  (Z.abs (digit b) <= 1 -> exists r, r_select g 0 b = ROk r /\ repc PRECOMPUTED r (zmul (digit b) P)) /\
  (1 < Z.abs (digit b) -> r_select g 0 b = RNil).
Proof. exact half_select. Qed.
Theorem C72_select_right_refuted : ~ (forall c P cs pos b r, repc P2 c P -> 0 <= pos < 32 -> -8 <= b <= 8 ->
  r_select (fst (r_run (r_new c) cs)) pos b = ROk r -> repc PRECOMPUTED r (zmul (b * 256 ^ pos) P)).
Proof. exact wrong_select. Qed.
(** scalarMultiply on it: if the scalar is d0 + 16 d1 modulo 256 with d0, d1 in -1, 0, 1, the result is (d0 + 16 d1) P without any
    error; for all other scalars it is an error. *)
Theorem C72_scalar_multiply : forall g rows P, r_single g = Some rows -> half_table rows P ->
  forall a, wf_bytes a -> (32 <= length a)%nat ->
  (forall d0 d1, Z.abs d0 <= 1 -> Z.abs d1 <= 1 -> (256 | le_val (firstn 32 a) - (d0 + 16 * d1)) ->
     exists r, r_scalar_multiply g a = ROk r /\ repc P3 r (zmul (d0 + 16 * d1) P)) /\
  ((forall d0 d1, Z.abs d0 <= 1 -> Z.abs d1 <= 1 -> ~ (256 | le_val (firstn 32 a) - (d0 + 16 * d1))) -> r_scalar_multiply g a = RNil).
Proof. exact half_scalar. Qed.
Theorem C72_scalar_multiply_right_refuted : ~ (forall c P cs a r, repc P2 c P -> wf_bytes a -> length a = 32%nat -> le_val a < 2 ^ 255 ->
  r_scalar_multiply (fst (r_run (r_new c) cs)) a = ROk r -> repc P3 r (zmul (le_val a) P)).
Proof. exact wrong_scalar. Qed.
(** The double multiplication is right or panics, whichever entries are missing in the tables of either element. *)
Theorem C72_double_right_or_panic : forall B A tB tA PB PA, r_double B = Some tB -> r_double A = Some tA ->
  partial_double tB PB -> partial_double tA PA ->
  forall a b, wf_bytes a -> length a = 32%nat -> le_val a <= 2 ^ 255 -> wf_bytes b -> length b = 32%nat -> le_val b <= 2 ^ 255 ->
  r_double_scalar_multiply B A a b = Panic \/
  exists r, r_double_scalar_multiply B A a b = Ok r /\ repc P2 r (psub (zmul (le_val b) PB) (zmul (le_val a) PA)).
Proof. exact right_or_panic. Qed.
Example C72_nonvacuous : exists c, repc P2 c Bpt /\ (g_cs c <> P3 \/ gT c = None) /\
  snd (r_run (r_new c) [PSingle; PDouble; PSingle]) = [true; true; false].
Proof. exact ex_recover. Qed.

Print Assumptions C72_P3.
Print Assumptions C72_half_filled.
Print Assumptions C72_P2.
Print Assumptions C72_select.
Print Assumptions C72_select_right_refuted.
Print Assumptions C72_scalar_multiply.
Print Assumptions C72_scalar_multiply_right_refuted.
Print Assumptions C72_double_right_or_panic.
