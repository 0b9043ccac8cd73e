(** The integers that 32-byte scalars stand for in the two multiplications, without reference to the
    model.  Below 2^255 both are the scalar itself. *)
From Coq Require Import List ZArith.
Import ListNotations.
Open Scope Z_scope.

(** Signed digits to the base 16, each between -8 and 7 but the 64th: [16^63 - 1 = 15 * (1 + 16 + ... + 16^62)].
    The 64th digit [t] is the rest; digits above 8 count as 0. *)
Definition top_digit (s : Z) : Z := (s + 8 * ((16 ^ 63 - 1) / 15)) / 16 ^ 63.
Definition single_scalar (s : Z) : Z := if top_digit s <=? 8 then s else s - top_digit s * 16 ^ 63.

(** The width-5 non-adjacent form (the textbook algorithm): an odd number gives the digit congruent to
    it modulo 32 that is between -15 and 15, an even number the digit 0.  [naf_rest n s] is what is left of [s] after [n] digits. *)
Definition smod32 (s : Z) : Z := if s mod 32 <? 16 then s mod 32 else s mod 32 - 32.
Definition naf_digit (s : Z) : Z := if Z.even s then 0 else smod32 s.
Fixpoint naf_digits (n : nat) (s : Z) : list Z :=
  match n with O => [] | S k => naf_digit s :: naf_digits k ((s - naf_digit s) / 2) end.
Fixpoint naf_rest (n : nat) (s : Z) : Z :=
  match n with O => s | S k => naf_rest k ((s - naf_digit s) / 2) end.
(** The first 256 digits alone. *)
Definition double_scalar (s : Z) : Z := s - 2 ^ 256 * naf_rest 256 s.
