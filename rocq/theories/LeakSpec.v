(** Vocabulary of C60: reading a scalar off a trace. *)
From Coq Require Import List ZArith Bool.
From Verif Require Import GoBase GroupModel LeakModel.
Import ListNotations.
Open Scope Z_scope.

(** the arguments of the cmov calls, one after the other: the first condition of a call is true if
    the argument is 1; otherwise the second condition follows *)
Fixpoint cmov_args (t : list event) : list bool :=
  match t with
  | Cond InCmov true :: r => true :: cmov_args r
  | Cond InCmov false :: Cond InCmov _ :: r => false :: cmov_args r
  | _ :: r => cmov_args r
  | [] => []
  end.
(** Select compares with 1, ..., 8 and then tests the sign: nine calls make one digit *)
Fixpoint position (i : Z) (l : list bool) : Z :=
  match l with [] => 0 | b :: r => if b then i else position (i + 1) r end.
Definition digit (l : list bool) : Z :=
  if nth 8 l false then - position 1 (firstn 8 l) else position 1 (firstn 8 l).
(** digits 1, 3, ..., 63, then 0, 2, ..., 62, base 16 *)
Definition digit_at (l : list bool) (n : nat) : Z := digit (firstn 9 (skipn (9 * n) l)).
Definition scalar_in (t : list event) : Z :=
  let l := cmov_args t in
  fold_right Z.add 0 (map (fun k => (16 * digit_at l k + digit_at l (32 + k)) * 256 ^ Z.of_nat k) (seq 0 32)).
(** the trace without the conditions in cmov *)
Definition elsewhere (t : list event) : list event :=
  filter (fun e => match e with Cond InCmov _ => false | _ => true end) t.
