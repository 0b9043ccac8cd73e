(** Specification vocabulary of C80: calls of several goroutines on one group element. *)
From Coq Require Import List ZArith.
From Verif Require Import GoBase GroupModel Curve GroupSpec RecoverModel RaceModel.
Import ListNotations.
Open Scope Z_scope.

(** Call number n of a history (calls are numbered from 0 in the order they are started) was call x and has ended with o. *)
Definition ended (s : machine) (n : nat) (x : call) (o : outcome) : Prop := nth_error (threads s) n = Some (x, Fin o).
(** Every call x has ended. *)
Definition none_running (s : machine) (x : call) : Prop :=
  forall n a, nth_error (threads s) n = Some (x, a) -> exists o, a = Fin o.
(** The element has a table for the scalar multiplication of P, with every entry there and right. *)
Definition full_single (g : rge) (P : point) : Prop :=
  exists rows, r_single g = Some (map (map Some) rows) /\ single_table rows P.
Definition full_double (g : rge) (P : point) : Prop :=
  exists l, r_double g = Some (map Some l) /\ double_table l P.
(** No entry of either table is wrong; entries may be missing. *)
Definition no_wrong_entry (g : rge) (P : point) : Prop :=
  (forall rows i row j e, r_single g = Some rows -> nth_error rows i = Some row -> nth_error row j = Some (Some e) ->
     repc PRECOMPUTED e (zmul ((Z.of_nat j + 1) * 256 ^ Z.of_nat i) P)) /\
  (forall l j e, r_double g = Some l -> nth_error l j = Some (Some e) -> repc PRECOMPUTED e (zmul (2 * Z.of_nat j + 1) P)).
(** The calls a history starts, how many of them are PrecomputeForScalarMultiplication, and how many turns it gives to call n. *)
Definition started (h : list event) : list call := flat_map (fun e => match e with Start x => [x] | Turn _ => [] end) h.
Definition singles (h : list event) : nat := length (filter (fun x => match x with CSingle => true | _ => false end) (started h)).
Definition turns (n : nat) (h : list event) : nat := length (filter (fun e => match e with Turn k => Nat.eqb k n | Start _ => false end) h).
(** What a call is about to do is a store to memory that other calls can reach. *)
Definition about_to_store (s : machine) (n : nat) : Prop :=
  exists x a, nth_error (threads s) n = Some (x, a) /\
    match a with NewS _ | NewD _ | NewR _ _ _ | StoreE _ _ _ _ | StoreDE _ _ _ _ => True | _ => False end.
