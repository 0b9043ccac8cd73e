(** Vocabulary of C81 and C82: group elements made by hand, and what is printed. *)
From Coq Require Import List ZArith Bool.
From Verif Require Import GoBase FieldModel GroupModel HandModel.
Import ListNotations.
Open Scope Z_scope.

(** An element of [GroupModel] as one made by hand. *)
Definition lift (g : gcore) : hand := Hand (number (g_cs g)) (Some (gX g)) (Some (gY g)) (Some (gZ g)) (gT g).
(** The same outcome: the same value, the same error, or both panic. *)
Definition agrees {A B} (f : A -> B) (x : out B) (y : res A) : Prop :=
  match y with Ok a => x = Val (f a) | Err e => x = Fail e | Panic => exists v, x = Pan v end.
Definition panics {A} (x : out A) : Prop := exists v, x = Pan v.
Definition returns {A} (x : out A) : Prop := exists a, x = Val a.
(** a coordinate is missing *)
Definition no3 (g : hand) : Prop := hX g = None \/ hY g = None \/ hZ g = None.
Definition no4 (g : hand) : Prop := no3 g \/ hT g = None.
(** both have a coordinate and it is the same (the other way: they are different) *)
Definition both (eq : bool) (a b : option fe) : Prop := exists x y, a = Some x /\ b = Some y /\ fe_equals x y = eq.
Definition missing (a b : option fe) : Prop := a = None \/ b = None.
(** the coordinates are compared in this order, the next ones if these are equal: one of them is missing when its turn
    comes *)
Fixpoint first_missing (l : list (option fe * option fe)) : Prop :=
  match l with [] => False | (a, b) :: l => missing a b \/ (both true a b /\ first_missing l) end.
(** which coordinate systems can be converted to which *)
Definition pairs : list (Z * Z) := [(1, 1); (2, 1); (2, 2); (2, 5); (3, 1); (3, 2); (3, 3); (4, 4); (5, 5)].
(** Equals prints nothing and returns, or prints one line and returns false. *)
Definition quiet_or_false (a b : Z) (l : list printed) (x : out bool) : Prop :=
  (l = [] /\ returns x) \/ (x = Val false /\ exists v, l = [Printed v a b]).
(** the panic of a conversion that does not exist *)
Definition refusal (n : Z) : pval := if (1 <=? n) && (n <=? 5) then PIllegalSystem match system n with Some c => c | None => AFFINE end else PIllegalNumber n.
(** an element as the library makes them: no coordinate is missing, T only where it has none *)
Definition whole (g : hand) : Prop := ~ no3 g /\ (h_cs g = 2 \/ h_cs g = 3 \/ h_cs g = 5 -> hT g <> None).
