(** FIPS 202 on bit strings, as the standard states it: the permutation Keccak-p[1600, 24] (section 3), the sponge
    (section 4), the padding (section 5.1) and the functions SHA3-256, SHA3-512 (section 6.1).  Nothing here mentions
    bytes, lanes or buffers, except [bits_of], the correspondence of byte strings and bit strings (appendix B.1).
    Vocabulary of property C84. *)
From Coq Require Import List ZArith Bool.
From Verif Require Import GoBase.
Import ListNotations.
Open Scope nat_scope.

(** Bytes as bits, the least significant first. *)
Definition bits_of (m : bytes) : list bool :=
  flat_map (fun b => map (fun i => Z.testbit b (Z.of_nat i)) (seq 0 8)) m.

(** ** Section 3.1: state arrays, A[x, y, z] = S[w(5y + x) + z] with w = 64 *)
Definition state := nat -> nat -> nat -> bool.
Definition to_state (s : list bool) : state := fun x y z => nth (64 * (5 * y + x) + z) s false.
Definition of_state (a : state) : list bool :=
  flat_map (fun y => flat_map (fun x => map (fun z => a x y z) (seq 0 64)) (seq 0 5)) (seq 0 5).

(** ** Section 3.2: the step mappings *)
Definition Theta (a : state) : state :=
  let c x z := xorb (a x 0 z) (xorb (a x 1 z) (xorb (a x 2 z) (xorb (a x 3 z) (a x 4 z)))) in
  let d x z := xorb (c ((x + 4) mod 5) z) (c ((x + 1) mod 5) ((z + 63) mod 64)) in
  fun x y z => xorb (a x y z) (d x z).
(** steps t, ..., t + n - 1 of the loop, at (x, y) *)
Fixpoint Rho_loop (n t x y : nat) (a a' : state) : state :=
  match n with
  | O => a'
  | S n' =>
      let off := Z.of_nat ((t + 1) * (t + 2) / 2) in
      Rho_loop n' (t + 1) y ((2 * x + 3 * y) mod 5) a
        (fun x1 y1 z => if (x1 =? x) && (y1 =? y) then a x y (Z.to_nat ((Z.of_nat z - off) mod 64)) else a' x1 y1 z)
  end.
Definition Rho (a : state) : state := Rho_loop 24 0 1 0 a a.
Definition Pi (a : state) : state := fun x y z => a ((x + 3 * y) mod 5) x z.
Definition Chi (a : state) : state :=
  fun x y z => xorb (a x y z) (xorb (a ((x + 1) mod 5) y z) true && a ((x + 2) mod 5) y z).
(** algorithm 5: the linear feedback shift register, one turn and t mod 255 turns *)
Definition lfsr (r : list bool) : list bool :=
  let r := false :: r in
  let b i := nth i r false in
  [xorb (b 0) (b 8); b 1; b 2; b 3; xorb (b 4) (b 8); xorb (b 5) (b 8); xorb (b 6) (b 8); b 7].
Definition rc (t : nat) : bool :=
  nth 0 (Nat.iter (t mod 255) lfsr [true; false; false; false; false; false; false; false]) false.
(** algorithm 6: bit z of the round constant: rc(j + 7 ir) at z = 2^j - 1 for j = 0, ..., 6 *)
Definition RC (ir z : nat) : bool :=
  existsb (fun j => (z =? 2 ^ j - 1) && rc (j + 7 * ir)) (seq 0 7).
Definition Iota (ir : nat) (a : state) : state :=
  fun x y z => if (x =? 0) && (y =? 0) then xorb (a x y z) (RC ir z) else a x y z.

(** ** Section 3.3: Keccak-p[1600, 24] *)
Definition Rnd (a : state) (ir : nat) : state := Iota ir (Chi (Pi (Rho (Theta a)))).
Definition Keccak_p (s : list bool) : list bool := of_state (fold_left Rnd (seq 0 24) (to_state s)).

(** ** Section 4: the sponge construction *)
Definition xor_bits (a b : list bool) : list bool := map (fun p => xorb (fst p) (snd p)) (combine a b).
(** the n pieces of r bits of a string *)
Fixpoint pieces (r n : nat) (p : list bool) : list (list bool) :=
  match n with O => [] | S n' => firstn r p :: pieces r n' (skipn r p) end.
Fixpoint squeeze (f : list bool -> list bool) (r n : nat) (s : list bool) : list bool :=
  match n with O => [] | S n' => firstn r s ++ squeeze f r n' (f s) end.
Definition sponge_of (f : list bool -> list bool) (pad : nat -> nat -> list bool) (b r : nat) (msg : list bool) (d : nat) : list bool :=
  let p := msg ++ pad r (length msg) in
  let s := fold_left (fun s pi => f (xor_bits s (pi ++ repeat false (b - r)))) (pieces r (length p / r) p) (repeat false b) in
  firstn d (squeeze f r ((d + r - 1) / r) s).
(** ** Section 5.1: pad10*1 *)
Definition pad10star1 (x m : nat) : list bool :=
  let j := Z.to_nat ((- Z.of_nat m - 2) mod Z.of_nat x) in [true] ++ repeat false j ++ [true].
(** ** Section 5.2: Keccak[c], and section 6.1; Keccak-256 is the function before the standard, without suffix *)
Definition Keccak (c : nat) (msg : list bool) (d : nat) : list bool := sponge_of Keccak_p pad10star1 1600 (1600 - c) msg d.
Definition SHA3_256 (m : list bool) : list bool := Keccak 512 (m ++ [false; true]) 256.
Definition SHA3_512 (m : list bool) : list bool := Keccak 1024 (m ++ [false; true]) 512.
Definition Keccak_256 (m : list bool) : list bool := Keccak 512 m 256.
