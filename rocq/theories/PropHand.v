(** Property C81: group elements made by hand, with any number as coordinate system and nil coordinates.  Statements; the
    proofs are in [PropHandLemmas]. *)
From Coq Require Import List ZArith Bool.
From Verif Require Import GoBase FieldModel GroupModel TextModel HandModel HandSpec PropHandLemmas.
Import ListNotations.
Open Scope Z_scope.

(** On elements with X, Y and Z in one of the six systems the calls do what [GroupModel] says. *)
Theorem C81_same_calls : forall r g c,
  agrees lift (h_to (lift g) (number c)) (to_cs g c) /\ agrees (fun a => a) (h_encode (lift g)) (g_encode g) /\
  agrees (fun a => a) (h_satisfies (lift g)) (g_satisfies g) /\ agrees lift (h_dbl (lift g)) (g_dbl g) /\
  agrees lift (h_add (lift r) (lift g)) (g_add r g) /\ agrees lift (h_subtract (lift r) (lift g)) (g_subtract r g) /\
  agrees lift (h_precomputedAdd (lift r) (lift g)) (g_precomputedAdd r g) /\
  agrees lift (h_precomputedSubtract (lift r) (lift g)) (g_precomputedSubtract r g) /\
  agrees lift (h_negate (lift r)) (g_negate r) /\ agrees (fun a => a) (h_string (lift g)) (g_string g) /\
  agrees (fun a => a) (snd (h_equals (lift r) (lift g))) (g_equals r g).
Proof. exact all_agree. Qed.
(** A conversion panics exactly when the pair is not one of nine or a coordinate it multiplies is nil. *)
Theorem C81_convert : forall g n,
  (panics (h_to g n) <->
   ~ In (h_cs g, n) pairs \/
   ((h_cs g = 2 /\ n = 5) /\ (hX g = None \/ hY g = None \/ hT g = None)) \/
   ((h_cs g = 3 /\ (n = 1 \/ n = 2)) /\ no4 g)) /\
  (~ In (h_cs g, n) pairs -> h_to g n = Pan (refusal (h_cs g))) /\
  (forall e, h_to g n <> Fail e).
Proof. exact convert_all. Qed.
Theorem C81_encode : forall g,
  (panics (h_encode g) <-> ~ (1 <= h_cs g <= 3) \/ no3 g \/ (h_cs g = 3 /\ hT g = None)) /\
  (panics (h_encode g) \/ exists b, h_encode g = Val b /\ length b = 32%nat).
Proof. exact encode_panics. Qed.
Theorem C81_satisfies : forall g,
  (panics (h_satisfies g) <-> ~ (1 <= h_cs g <= 3) \/ no3 g \/ (h_cs g = 3 /\ hT g = None)) /\
  (panics (h_satisfies g) \/ returns (h_satisfies g)).
Proof. exact satisfies_panics. Qed.
Theorem C81_double : forall g,
  (panics (h_dbl g) <-> ~ (h_cs g = 1 \/ h_cs g = 2) \/ no3 g) /\ (panics (h_dbl g) \/ returns (h_dbl g)).
Proof. exact dbl_panics. Qed.
Theorem C81_add : forall r g,
  (panics (h_add r g) <-> h_cs r <> 2 \/ h_cs g <> 5 \/ no4 r \/ no4 g) /\ (panics (h_add r g) \/ returns (h_add r g)).
Proof. exact add_panics. Qed.
Theorem C81_subtract : forall r g,
  (panics (h_subtract r g) <-> h_cs r <> 2 \/ h_cs g <> 5 \/ no4 r \/ no4 g) /\
  (panics (h_subtract r g) \/ returns (h_subtract r g)).
Proof. exact subtract_panics. Qed.
(** precomputedAdd reports the wrong systems as errors, precomputedSubtract by a panic. *)
Theorem C81_precomputed_add : forall r g,
  (panics (h_precomputedAdd r g) <-> h_cs r = 2 /\ h_cs g = 4 /\ (no4 r \/ no3 g)) /\
  (h_cs r <> 2 -> h_precomputedAdd r g = Fail ErrUnsupported) /\
  (h_cs r = 2 -> h_cs g <> 4 -> h_precomputedAdd r g = Fail ErrIllegalArgument) /\
  (h_cs r = 2 -> h_cs g = 4 -> panics (h_precomputedAdd r g) \/ returns (h_precomputedAdd r g)).
Proof. exact padd_panics. Qed.
Theorem C81_precomputed_subtract : forall r g,
  (panics (h_precomputedSubtract r g) <-> h_cs r <> 2 \/ h_cs g <> 4 \/ no4 r \/ no3 g) /\
  (panics (h_precomputedSubtract r g) \/ returns (h_precomputedSubtract r g)).
Proof. exact psub_panics. Qed.
Theorem C81_negate : forall r,
  (panics (h_negate r) <-> h_cs r = 2 /\ no4 r) /\
  (h_cs r <> 2 -> h_negate r = Fail ErrUnsupported) /\ (h_cs r = 2 -> panics (h_negate r) \/ returns (h_negate r)).
Proof. exact negate_panics. Qed.
Theorem C81_string : forall g, (panics (h_string g) <-> no4 g) /\ (panics (h_string g) \/ returns (h_string g)).
Proof. exact string_panics. Qed.
(** Equals of elements in different systems never panics, whatever they are made of. *)
Theorem C81_equals_different : forall r g, h_cs r <> h_cs g ->
  exists n, (n = h_cs g \/ n = h_cs r) /\ quiet_or_false (h_cs r) n (fst (h_equals r g)) (snd (h_equals r g)).
Proof. exact equals_different. Qed.
(** In one system it panics exactly when it needs a nil coordinate, or the system is AFFINE or none. *)
Theorem C81_equals_same : forall r g, h_cs r = h_cs g ->
  (~ (1 <= h_cs r <= 5) -> h_equals r g = ([], Pan PSystem)) /\
  (h_cs r <> 3 -> fst (h_equals r g) = []) /\
  (h_cs r = 1 \/ h_cs r = 2 -> (panics (snd (h_equals r g)) <->
     missing (hZ r) (hZ g) \/ (both true (hZ r) (hZ g) /\ first_missing [(hX r, hX g); (hY r, hY g)]) \/
     (both false (hZ r) (hZ g) /\ (missing (hX r) (hX g) \/ missing (hY r) (hY g))))) /\
  (h_cs r = 4 -> (panics (snd (h_equals r g)) <-> first_missing [(hX r, hX g); (hY r, hY g); (hZ r, hZ g)])) /\
  (h_cs r = 5 -> (panics (snd (h_equals r g)) <->
     missing (hZ r) (hZ g) \/ (both true (hZ r) (hZ g) /\ first_missing [(hX r, hX g); (hY r, hY g); (hT r, hT g)]) \/
     (both false (hZ r) (hZ g) /\ (missing (hX r) (hX g) \/ missing (hY r) (hY g) \/ missing (hT r) (hT g))))) /\
  (h_cs r = 3 -> (panics (snd (h_equals r g)) <-> no4 r) /\
     (~ no4 r -> exists n, (n = 3 \/ n = 1) /\ quiet_or_false 1 n (fst (h_equals r g)) (snd (h_equals r g)))) /\
  (panics (snd (h_equals r g)) \/ returns (snd (h_equals r g))).
Proof. exact equals_same. Qed.
(** Which panics have which values. *)
Theorem C81_panic_values : forall r g v,
  ((forall n, In (h_cs g, n) pairs -> h_to g n = Pan v -> v = PNil) /\
   (h_encode g = Pan v \/ h_satisfies g = Pan v -> v = if (1 <=? h_cs g) && (h_cs g <=? 3) then PNil else refusal (h_cs g)) /\
   (h_dbl g = Pan v -> v = if (h_cs g =? 1) || (h_cs g =? 2) then PNil else PUnsupportedCall)) /\
  ((h_add r g = Pan v \/ h_subtract r g = Pan v -> v = if h_cs r =? 2 then if h_cs g =? 5 then PNil else PIllegal else PUnsupported) /\
   (h_precomputedSubtract r g = Pan v -> v = if h_cs r =? 2 then if h_cs g =? 4 then PNil else PIllegal else PUnsupported) /\
   (h_precomputedAdd r g = Pan v \/ h_negate r = Pan v \/ h_string r = Pan v -> v = PNil)) /\
  ((snd (h_equals r g) = Pan v -> v = if (1 <=? h_cs r) && (h_cs r <=? 5) then PNil else PSystem) /\
   (forall a b, In (h_cs g, h_cs r) pairs -> In (Printed v a b) (fst (h_equals r g)) -> v = PNil)).
Proof. exact panic_values. Qed.
Example C81_nonvacuous : panics (h_encode (Hand 7 (hX base_hand) (hY base_hand) (hZ base_hand) (hT base_hand))) /\
  panics (h_encode (Hand 2 (hX base_hand) (hY base_hand) None (hT base_hand))) /\ returns (h_encode (Hand 2 (hX base_hand) (hY base_hand) (hZ base_hand) None)).
Proof. exact examples_bad. Qed.
Example C81_nonvacuous_equals :
  h_equals (Hand 1 None None None None) (Hand 7 None None None None) = ([Printed (PIllegalNumber 7) 1 7], Val false) /\
  h_equals (Hand 2 None None None None) (Hand 1 None None None None) = ([Printed (PIllegalSystem P2) 2 1], Val false) /\
  h_equals (Hand 1 None None None None) (Hand 2 None None None None) = ([Printed PNil 1 1], Val false) /\
  panics (snd (h_equals (Hand 1 None None None None) (Hand 1 None None None None))).
Proof. exact examples_different. Qed.

Print Assumptions C81_same_calls.
Print Assumptions C81_convert.
Print Assumptions C81_encode.
Print Assumptions C81_satisfies.
Print Assumptions C81_double.
Print Assumptions C81_add.
Print Assumptions C81_subtract.
Print Assumptions C81_precomputed_add.
Print Assumptions C81_precomputed_subtract.
Print Assumptions C81_negate.
Print Assumptions C81_string.
Print Assumptions C81_equals_different.
Print Assumptions C81_equals_same.
Print Assumptions C81_panic_values.
