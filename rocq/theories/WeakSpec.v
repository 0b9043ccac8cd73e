(** Vocabulary of C89. *)
From Coq Require Import List ZArith.
From Verif Require Import GoBase GroupModel RecoverModel RaceModel WeakModel.
Import ListNotations.
Open Scope Z_scope.

(** A call x has ended with o. *)
Definition has_ended (s : weak) (x : call) (o : outcome) : Prop := exists n, In (x, Fin o, n) (calls s).
(** The sum of d_i * 16^i over the digits that are kept. *)
Fixpoint kept (keep : list bool) (d : list Z) : Z :=
  match keep, d with k :: keep, x :: d => (if k then x else 0) + 16 * kept keep d | _, _ => 0 end.
(** The 64 signed digits of s: those between -8 and 7, the last one between 0 and 16. *)
Definition signed_digits (s : Z) (d : list Z) : Prop :=
  length d = 64%nat /\ kept (repeat true 64) d = s /\ (forall i, (i < 63)%nat -> -8 <= nth i d 0 <= 7) /\ 0 <= nth 63 d 0 <= 16.
(** It panicked, or the call returned the error for a nil element. *)
Definition failed (o : outcome) : Prop := o = Panicked \/ o = Result RPanic \/ o = Result RNil.
