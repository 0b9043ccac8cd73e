(** Specification vocabulary of C75: the Reads of a call, and kinds of sources. *)
From Coq Require Import List ZArith Arith.
From Verif Require Import GoBase ApiModel SessionModel SessionSpec ConcModel.
Import ListNotations.
Open Scope nat_scope.

(** What the Reads returned that goroutine g made during its k-th call, in order. *)
Definition answers (g k : nat) (es : list event) : list (bytes * option rerr) :=
  map answer (filter (fun e => Nat.eqb (by_go e) g && Nat.eqb (in_call e) k) es).
(** The contract of io.Reader: at most as many bytes as the buffer has. *)
Definition sources_ok (S : sources) : Prop := forall w i n c e w', sread S w i n = (c, e, w') -> length c <= n.
(** Every Read into a buffer that is not empty gives a byte or an error. *)
Definition sources_lively (S : sources) : Prop :=
  forall w i n c w', 0 < n -> sread S w i n = (c, None, w') -> c <> [].
(** Reader i hands out the bytes tape i 0, tape i 1, ..., each of them once, in portions of any size and with errors at
    any time; [pos w i] is the number of bytes it has handed out in state w. *)
Definition tapes (S : sources) (tape : nat -> nat -> Z) (pos : sstate S -> nat -> nat) : Prop :=
  forall w i n c e w', sread S w i n = (c, e, w') ->
    c = map (tape i) (seq (pos w i) (length c)) /\ pos w' i = pos w i + length c /\
    forall j, j <> i -> pos w' j = pos w j.
(** The readers have separate states [part w i]: what reader i does depends on its own state only and changes no other. *)
Definition separate (S : sources) {P : Type} (part : sstate S -> nat -> P) : Prop :=
  forall w i n, (forall w', part w i = part w' i ->
      fst (sread S w i n) = fst (sread S w' i n) /\ part (snd (sread S w i n)) i = part (snd (sread S w' i n)) i) /\
    forall j, j <> i -> part (snd (sread S w i n)) j = part w j.
(** The calls of a goroutine use reader i. *)
Definition uses (calls : list call) (i : nat) : Prop := exists c, In c calls /\ source_of c = Some i.
(** How often the schedule picks g. *)
Definition turns (schedule : list nat) (g : nat) : nat := count_occ Nat.eq_dec schedule g.
(** Turns that suffice for a list of calls: one per byte and three per call. *)
Definition effort (calls : list call) : nat := fold_right (fun c n => need c + 3 + n) 0 calls.
