(** Tables with missing (nil) entries: specification vocabulary of C72. *)
From Coq Require Import List ZArith.
From Verif Require Import GoBase GroupModel Curve GroupSpec.
Import ListNotations.
Open Scope Z_scope.

(** A table for scalar multiplication of P of which only the first entry, P itself, is there: the first row has eight
    places, the other 31 rows none. *)
Definition half_table (rows : list (list (option gcore))) (P : point) : Prop :=
  exists e, repc PRECOMPUTED e P /\ rows = (Some e :: repeat None 7) :: repeat [] 31.
(** A table for double scalar multiplication in which entries may be missing: entry j represents (2j+1) P if it is there. *)
Definition partial_double (t : list (option gcore)) (P : point) : Prop :=
  length t = 8%nat /\ forall j e, nth_error t j = Some (Some e) -> repc PRECOMPUTED e (zmul (2 * Z.of_nat j + 1) P).
