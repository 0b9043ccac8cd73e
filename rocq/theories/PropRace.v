(** Property C80: goroutines that call the methods of one and the same group element.  Statements; the proofs are in
    [RaceProofs] and [PropRaceLemmas].  [race c h] is a new element with coordinates c and the state of all calls after
    the history h, which starts calls and gives them turns in any order; calls are numbered from 0 as they are started. *)
From Coq Require Import List ZArith.
From Verif Require Import GoBase FieldModel Fp Curve BasePoint GroupModel GroupSpec ScalarSpec TextModel TextSpec RecoverModel
  RaceModel RaceSpec PropRaceLemmas.
Import ListNotations.
Open Scope Z_scope.

(** At no moment is there a wrong entry in a table. *)
Theorem C80_no_wrong_entry : forall c P, repc P3 c P -> forall h, no_wrong_entry (seen c (memory (race c h))) P.
Proof. exact entries. Qed.
(** Select, at any time: it is right, or the neutral element, or the error for nil, or it panics. *)
Theorem C80_select : forall c P, repc P3 c P -> forall h n pos b o, ended (race c h) n (CSelect pos b) o ->
  exists x, o = Result x /\ (x = RPanic \/ x = RNil \/
    exists r, x = ROk r /\ (repc PRECOMPUTED r (zmul (digit b * 256 ^ pos) P) \/ repc PRECOMPUTED r pzero)).
Proof. exact selected. Qed.
(** When no PrecomputeForScalarMultiplication is running and one has returned - or there is a table at all - the table is
    complete, whatever the schedule, and whichever calls panicked. *)
Theorem C80_single_complete : forall c P, repc P3 c P -> forall h, none_running (race c h) CSingle ->
  (exists n, ended (race c h) n CSingle Returned) \/ r_single (seen c (memory (race c h))) <> None ->
  full_single (seen c (memory (race c h))) P.
Proof. exact single_done. Qed.
(** From then on it stays, and all calls started later are right. *)
Theorem C80_single_stays : forall c P, repc P3 c P -> forall h h', none_running (race c h) CSingle ->
  full_single (seen c (memory (race c h))) P ->
  r_single (seen c (memory (race c (h ++ h')))) = r_single (seen c (memory (race c h))) /\
  forall n x o, (length (threads (race c h)) <= n)%nat -> ended (race c (h ++ h')) n x o ->
    (x = CSingle -> o = Returned) /\
    (forall pos b, x = CSelect pos b -> 0 <= pos < 32 -> exists r, o = Result (ROk r) /\ repc PRECOMPUTED r (zmul (digit b * 256 ^ pos) P)) /\
    (forall a, x = CMultiply a -> wf_bytes a -> (32 <= length a)%nat ->
       exists r, o = Result (ROk r) /\ repc P3 r (zmul (single_scalar (le_val (firstn 32 a))) P)).
Proof. exact single_stays. Qed.
(** PrecomputeForDoubleScalarMultiplication: the same, provided that no call of it panicked. *)
Theorem C80_double_complete : forall c P, repc P3 c P -> forall h, none_running (race c h) CDouble ->
  (forall n, ~ ended (race c h) n CDouble Panicked) ->
  (exists n, ended (race c h) n CDouble Returned) \/ r_double (seen c (memory (race c h))) <> None ->
  full_double (seen c (memory (race c h))) P.
Proof. exact double_done. Qed.
Theorem C80_double_stays : forall c P, repc P3 c P -> forall h h', none_running (race c h) CDouble ->
  r_double (seen c (memory (race c h))) <> None ->
  r_double (seen c (memory (race c (h ++ h')))) = r_double (seen c (memory (race c h))) /\
  forall n x o, (length (threads (race c h)) <= n)%nat -> ended (race c (h ++ h')) n x o ->
    (x = CDouble -> o = Returned) /\ (x = CIsDouble -> o = Answer true).
Proof. exact double_stays. Qed.
(** Which precomputations never panic: one PrecomputeForScalarMultiplication alone, or any number of
    PrecomputeForDoubleScalarMultiplication without the other kind. *)
Theorem C80_one_single_never_panics : forall c P, repc P3 c P -> forall h, (singles h <= 1)%nat -> ~ In CDouble (started h) ->
  forall n o, ended (race c h) n CSingle o -> o = Returned.
Proof. exact single_alone. Qed.
Theorem C80_doubles_never_panic : forall c P, repc P3 c P -> forall h, ~ In CSingle (started h) ->
  forall n o, ended (race c h) n CDouble o -> o = Returned.
Proof. exact double_alone. Qed.
(** Two calls of the former can panic (any element, any coordinates). *)
Theorem C80_two_singles_panic : forall c, exists h, started h = [CSingle; CSingle] /\ ended (race c h) 0 CSingle Panicked.
Proof. exact (fun c => ex_intro _ h_panic (two_singles c)). Qed.
(** One call of each kind can panic, and the double table is lost: it has eight nil entries for ever, every later
    PrecomputeForDoubleScalarMultiplication returns at once and IsPrecomputedForDoubleScalarMultiplication says true. *)
Theorem C80_double_lost : forall c P, repc P3 c P -> exists h, started h = [CDouble; CSingle] /\ ended (race c h) 0 CDouble Panicked /\
  forall h', r_double (seen c (memory (race c (h ++ h')))) = Some (repeat None 8) /\
    forall n o, (2 <= n)%nat ->
      (ended (race c (h ++ h')) n CDouble o -> o = Returned) /\ (ended (race c (h ++ h')) n CIsDouble o -> o = Answer true).
Proof. exact double_lost. Qed.
(** That one PrecomputeForScalarMultiplication has returned does not make the Selects started later right. *)
Theorem C80_right_after_return_refuted : ~ (forall c P h h' k n pos b r, repc P3 c P -> ended (race c h) k CSingle Returned -> 0 <= pos < 32 ->
  (length (threads (race c h)) <= n)%nat -> ended (race c (h ++ h')) n (CSelect pos b) (Result (ROk r)) ->
  repc PRECOMPUTED r (zmul (digit b * 256 ^ pos) P)).
Proof. exact wrong_after_return. Qed.
(** Every call ends after at most 1000 turns of its own, whatever the others do. *)
Theorem C80_every_call_ends : forall c h h' n x a, nth_error (threads (race c h)) n = Some (x, a) -> (1000 <= turns n h')%nat ->
  exists o, ended (race c (h ++ h')) n x o.
Proof. exact every_call_ends. Qed.
(** Safe use: after the precomputations have returned, once nobody precomputes any more, no call ever stores anything, if
    only calls are started that have their table.  So these calls have no data races, and for programs without data races
    Go does promise that all goroutines see the loads and stores in one order. *)
Theorem C80_safe_use_has_no_race : forall c P h, repc P3 c P -> none_running (race c h) CSingle -> none_running (race c h) CDouble ->
  r_single (seen c (memory (race c h))) <> None ->
  forall h', r_double (seen c (memory (race c h))) <> None \/ ~ In CDouble (started h') ->
  forall n, ~ about_to_store (race c (h ++ h')) n.
Proof. exact safe_use. Qed.
(** IsPrecomputedForDoubleScalarMultiplication says whether there was a table, complete or not, at one moment between its
    start and its end. *)
Theorem C80_is_precomputed : forall c h n b, ended (race c h) n CIsDouble (Answer b) -> exists h1 h2, h = h1 ++ Turn n :: h2 /\
  (exists a, nth_error (threads (race c h1)) n = Some (CIsDouble, a) /\ forall o, a <> Fin o) /\
  (b = true <-> r_double (seen c (memory (race c h1))) <> None).
Proof. exact is_double. Qed.
Example C80_nonvacuous_answers : forall c, ended (race c [Start CIsDouble; Turn 0]) 0 CIsDouble (Answer false) /\
  ended (race c [Start CDouble; Start CIsDouble; Turn 0; Turn 0; Turn 1]) 1 CIsDouble (Answer true).
Proof. exact (fun c => conj eq_refl eq_refl). Qed.
Example C80_nonvacuous : exists c h, repc P3 c Bpt /\ started h = [CSingle] /\ ended (race c h) 0 CSingle Returned /\ none_running (race c h) CSingle /\
  exists h', started h' = [CDouble] /\ ended (race c h') 0 CDouble Returned /\ none_running (race c h') CDouble.
Proof. exact ex_race. Qed.
Example C80_nonvacuous_safe : exists c h, repc P3 c Bpt /\ none_running (race c h) CSingle /\ none_running (race c h) CDouble /\
  r_single (seen c (memory (race c h))) <> None.
Proof. exact ex_safe. Qed.

Print Assumptions C80_no_wrong_entry.
Print Assumptions C80_select.
Print Assumptions C80_single_complete.
Print Assumptions C80_single_stays.
Print Assumptions C80_double_complete.
Print Assumptions C80_double_stays.
Print Assumptions C80_one_single_never_panics.
Print Assumptions C80_doubles_never_panic.
Print Assumptions C80_two_singles_panic.
Print Assumptions C80_double_lost.
Print Assumptions C80_right_after_return_refuted.
Print Assumptions C80_every_call_ends.
Print Assumptions C80_safe_use_has_no_race.
Print Assumptions C80_is_precomputed.
