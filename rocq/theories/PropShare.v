(** Property C49: group elements and their shared coordinates.  Statements; the proofs are in
    [ShareProofs] and [PropShareLemmas].  The objects are those of [ShareModel]; [reachable],
    [library_call], [holds], [result], [get_coord], [table_entry] are in [ShareSpec]. *)
From Coq Require Import List ZArith Bool.
From Verif Require Import GoBase FieldModel FieldSpec GroupModel GroupSpec BasePoint ApiModel ShareModel ShareSpec PropShareLemmas.
Import ListNotations.
Open Scope nat_scope.

(** Whatever calls of the library were made before, [BASE_POINT] succeeds and returns the same element
    (point and tables) as at the start. *)
Theorem C49_base_point_constant : forall b m, reachable b m -> exists m1 a g,
  gstep b m GBasePoint = Some (m1, Some a) /\ base_point = Ok g /\ holds m1 a g.
Proof. exact base_constant. Qed.
(** No call of the library changes the coordinates or a table of an element the program already has;
    a missing table can appear. *)
Theorem C49_elements_constant : forall b m, reachable b m ->
  forall os m', Forall library_call os -> grun b m os = Some m' ->
  forall a g, holds m a g -> exists g', holds m' a g' /\ core g' = core g /\
    (forall t, single g = Some t -> single g' = Some t) /\
    (forall x t, double g = Some (x :: t) -> double g' = Some (x :: t)).
Proof. exact elements_constant. Qed.

(** The results are those of the model without sharing, on which the other properties are stated. *)
Theorem C49_to_coordinate_system : forall b m a o n, reachable b m -> nth_error (objs m) a = Some o ->
  result (gstep b m (GToCs a n)) (to_cs (hcore m o) n).
Proof. exact to_cs_result. Qed.
Theorem C49_select : forall b m a o pos k, reachable b m -> nth_error (objs m) a = Some o ->
  result (gstep b m (GSelect a pos k)) (g_select (hval m o) pos k).
Proof. exact select_result. Qed.
Theorem C49_arithmetic : forall b m, reachable b m ->
  (forall a o s, nth_error (objs m) a = Some o -> result (gstep b m (GScalarMultiply a s)) (g_scalarMultiply (hval m o) s)) /\
  (forall a o a2 o2 s t, nth_error (objs m) a = Some o -> nth_error (objs m) a2 = Some o2 ->
     result (gstep b m (GDoubleScalarMultiply a a2 s t)) (g_doubleScalarMultiply (hval m o) (hval m o2) s t) /\
     result (gstep b m (GAdd a a2)) (g_add (hcore m o) (hcore m o2)) /\
     result (gstep b m (GSubtract a a2)) (g_subtract (hcore m o) (hcore m o2)) /\
     result (gstep b m (GPrecomputedAdd a a2)) (g_precomputedAdd (hcore m o) (hcore m o2)) /\
     result (gstep b m (GPrecomputedSubtract a a2)) (g_precomputedSubtract (hcore m o) (hcore m o2))) /\
  (forall a o, nth_error (objs m) a = Some o ->
     result (gstep b m (GDbl a)) (g_dbl (hcore m o)) /\ result (gstep b m (GNegate a)) (g_negate (hcore m o))) /\
  (forall raw, result (gstep b m (GDecode raw)) (do e <- new_ege raw; g_decode e)).
Proof. exact value_results. Qed.
Theorem C49_tables : forall b m a o, reachable b m -> nth_error (objs m) a = Some o ->
  (forall m' x, gstep b m (GCopy a) = Some (m', x) -> exists a' g, x = Some a' /\ g_copy (hval m o) = Ok g /\ holds m' a' g) /\
  (forall m' x, gstep b m (GPrecomputeSingle a) = Some (m', x) -> (exists e, g_precompute_single (hval m o) = Err e) \/
     exists g, g_precompute_single (hval m o) = Ok g /\ holds m' a g) /\
  (forall m' x, gstep b m (GPrecomputeDouble a) = Some (m', x) -> (exists e, g_precompute_double (hval m o) = Err e) \/
     exists g, g_precompute_double (hval m o) = Ok g /\ holds m' a g).
Proof. exact table_results. Qed.

(** But the copy [BASE_POINT] returns is shallow: a program that writes to a coordinate of it changes what
    every later [BASE_POINT] returns. *)
Theorem C49_write_leaks : forall b m m1 a c f m2 x m3 a', reachable b m ->
  gstep b m GBasePoint = Some (m1, Some a) -> gstep b m1 (GWrite a c f) = Some (m2, x) ->
  gstep b m2 GBasePoint = Some (m3, Some a') ->
  exists g, holds m3 a' g /\ get_coord (core g) c = Some f.
Proof. exact write_leaks. Qed.
Theorem C49_write_possible : forall b m c f, reachable b m -> exists m1 a m2 m3 a',
  gstep b m GBasePoint = Some (m1, Some a) /\ gstep b m1 (GWrite a c f) = Some (m2, None) /\
  gstep b m2 GBasePoint = Some (m3, Some a').
Proof. exact write_chain. Qed.
(** and [Select] returns the table entry itself: a program that writes to a coordinate of the result
    changes the table of every later [BASE_POINT]. *)
Theorem C49_select_leaks : forall b m m1 a pos k m2 r c f m3 x m4 a', reachable b m -> pos < 32 -> 1 <= k <= 8 ->
  gstep b m GBasePoint = Some (m1, Some a) -> gstep b m1 (GSelect a pos (Z.of_nat k)) = Some (m2, Some r) ->
  gstep b m2 (GWrite r c f) = Some (m3, x) -> gstep b m3 GBasePoint = Some (m4, Some a') ->
  exists g e, holds m4 a' g /\ table_entry g pos k = Some e /\ get_coord e c = Some f.
Proof. exact select_leaks. Qed.

Theorem C49_select_possible : forall b m pos k f, reachable b m -> pos < 32 -> 1 <= k <= 8 -> exists m1 a m2 r m3 m4 a',
  gstep b m GBasePoint = Some (m1, Some a) /\ gstep b m1 (GSelect a pos (Z.of_nat k)) = Some (m2, Some r) /\
  gstep b m2 (GWrite r CX f) = Some (m3, None) /\ gstep b m3 GBasePoint = Some (m4, Some a').
Proof. exact select_chain. Qed.

(** A write changes the coordinate written to, wherever it is shared ([coord_ptr]: the object that holds
    the coordinate), and nothing else; no element appears or disappears. *)
Theorem C49_write_only : forall b m a o c f m' x, reachable b m -> nth_error (objs m) a = Some o ->
  gstep b m (GWrite a c f) = Some (m', x) ->
  exists p, coord_ptr o c = Some p /\ forall a2 o2, nth_error (objs m) a2 = Some o2 ->
    nth_error (objs m') a2 = Some o2 /\ forall c2,
    (coord_ptr o2 c2 = Some p -> get_coord (hcore m' o2) c2 = Some f) /\
    (coord_ptr o2 c2 <> Some p -> get_coord (hcore m' o2) c2 = get_coord (hcore m o2) c2).
Proof. exact write_only. Qed.
(** The results of the arithmetic and of [Decode] share nothing: a write to one changes no element the
    program had before, neither its coordinates nor its tables. *)
Theorem C49_write_to_new : forall b m op m1 r c f m2 x, reachable b m -> makes_new op ->
  gstep b m op = Some (m1, Some r) -> gstep b m1 (GWrite r c f) = Some (m2, x) ->
  forall a g, holds m a g -> holds m2 a g.
Proof. exact write_to_new. Qed.
Theorem C49_write_to_new_possible : forall b m c f, reachable b m -> c <> CT -> exists m0 a m1 r m2,
  gstep b m GBasePoint = Some (m0, Some a) /\ gstep b m0 (GDbl a) = Some (m1, Some r) /\
  gstep b m1 (GWrite r c f) = Some (m2, None).
Proof. exact write_to_new_chain. Qed.

(** What toCoordinateSystem shares: a write to a coordinate of the result changes the same coordinate of the receiver when
    the conversion leaves it in place ([stays]), and otherwise no element the program had before. *)
Theorem C49_write_to_converted : forall b m a o n m1 r c f m2 x, reachable b m -> nth_error (objs m) a = Some o ->
  gstep b m (GToCs a n) = Some (m1, Some r) -> gstep b m1 (GWrite r c f) = Some (m2, x) ->
  (stays (ho_cs o) n c -> get_coord (hcore m2 o) c = Some f) /\
  (~ stays (ho_cs o) n c -> forall a2 g, holds m a2 g -> holds m2 a2 g).
Proof. exact conversion. Qed.
Theorem C49_write_to_converted_possible : forall b m c f, reachable b m -> c <> CT -> exists m0 a o m1 r m2,
  gstep b m GBasePoint = Some (m0, Some a) /\ nth_error (objs m0) a = Some o /\ stays (ho_cs o) P2 c /\
  gstep b m0 (GToCs a P2) = Some (m1, Some r) /\ gstep b m1 (GWrite r c f) = Some (m2, None).
Proof. exact conversion_chain. Qed.

(** The package initialises, so the hypotheses are met. *)
Theorem C49_reachable : exists m b, reachable b m.
Proof. exact reachable_exists. Qed.

Print Assumptions C49_base_point_constant.
Print Assumptions C49_elements_constant.
Print Assumptions C49_to_coordinate_system.
Print Assumptions C49_select.
Print Assumptions C49_arithmetic.
Print Assumptions C49_tables.
Print Assumptions C49_write_leaks.
Print Assumptions C49_write_possible.
Print Assumptions C49_select_leaks.
Print Assumptions C49_select_possible.
Print Assumptions C49_write_only.
Print Assumptions C49_write_to_new.
Print Assumptions C49_write_to_new_possible.
Print Assumptions C49_write_to_converted.
Print Assumptions C49_write_to_converted_possible.
Print Assumptions C49_reachable.
