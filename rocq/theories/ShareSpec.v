(** Vocabulary of property C49. *)
From Coq Require Import List ZArith Bool.
From Verif Require Import GoBase FieldModel GroupModel ShareModel.
Import ListNotations.
Open Scope nat_scope.

(** The library's own calls (everything but a write from outside). *)
Definition library_call (o : gop) : Prop := match o with GWrite _ _ _ => False | _ => True end.

(** [a] is the address of an element worth [g]. *)
Definition holds (m : mem) (a : nat) (g : ge) : Prop :=
  exists o, nth_error (objs m) a = Some o /\ hval m o = g.

(** Every pointer points somewhere. *)
Definition wf_obj (m : mem) (o : hobj) : Prop :=
  ho_X o < length (cells m) /\ ho_Y o < length (cells m) /\ ho_Z o < length (cells m) /\
  (forall p, ho_T o = Some p -> p < length (cells m)) /\
  (forall t, ho_single o = Some t -> Forall (Forall (fun a => a < length (objs m))) t) /\
  (forall t, ho_double o = Some t -> Forall (fun a => a < length (objs m)) t).
Definition wf_mem (m : mem) : Prop := Forall (wf_obj m) (objs m).

(** A coordinate of an element. *)
Definition get_coord (g : gcore) (c : coord) : option fe :=
  match c with CX => Some (gX g) | CY => Some (gY g) | CZ => Some (gZ g) | CT => gT g end.
(** The entry for the digit [b] (1 to 8) of row [pos] of the table for scalar multiplication. *)
Definition table_entry (g : ge) (pos b : nat) : option gcore :=
  match single g with
  | Some rows => match nth_error rows pos with Some row => nth_error row (b - 1) | None => None end
  | None => None
  end.

(** Every memory a program can bring about with the library's calls, from the package's initialisation on;
    [b] is the address of the package's base point. *)
Definition reachable (b : nat) (m : mem) : Prop :=
  exists m0 os, init_mem = Ok (m0, b) /\ Forall library_call os /\ grun b m0 os = Some m.

(** The outcome of a call [x] is that of the memory-less model, [r]. *)
Definition result (x : option (mem * option nat)) (r : res gcore) : Prop :=
  match x, r with
  | Some (m', Some a), Ok g => exists o, nth_error (objs m') a = Some o /\ hcore m' o = g
  | Some (_, None), Err _ => True
  | None, Panic => True
  | _, _ => False
  end.

(** The arithmetic on elements, and [Decode]. *)
Definition makes_new (o : gop) : Prop :=
  match o with
  | GScalarMultiply _ _ | GDoubleScalarMultiply _ _ _ _ | GAdd _ _ | GSubtract _ _ | GPrecomputedAdd _ _
  | GPrecomputedSubtract _ _ | GDbl _ | GNegate _ | GDecode _ => True
  | _ => False
  end.

(** Converting an element from one coordinate system to another leaves this coordinate in place: the same system again,
    or P3 to P2, or the Z of P3 to CACHED. *)
Definition stays (from to : csys) (c : coord) : Prop :=
  match from, to with
  | P2, P2 | P3, P3 | P3, P2 | P1xP1, P1xP1 | PRECOMPUTED, PRECOMPUTED | CACHED, CACHED => True
  | P3, CACHED => c = CZ
  | _, _ => False
  end.
