(** RIPEMD-160 as its authors state it (Dobbertin, Bosselaers, Preneel, 1996): the message words, the permutations
    rho and pi that order them, the rotation amounts, the constants (by the description that defines them), the Boolean
    functions and the two parallel lines of 80 steps.  Vocabulary of property C87. *)
From Coq Require Import List ZArith Bool.
From Verif Require Import GoBase.
Import ListNotations.
Open Scope Z_scope.

(** Bytes as a number, the least significant first. *)
Definition le_number (l : bytes) : Z := fold_right (fun b a => b + 256 * a) 0 l.
Definition byte_piece (n i : nat) (l : bytes) : bytes := firstn n (skipn (n * i) l).

(** "cyclic left shift over s positions" of a 32-bit word *)
Definition rol (s x : Z) : Z := (x * 2 ^ s) mod 2 ^ 32 + x / 2 ^ (32 - s).
Definition inverted (x : Z) : Z := 2 ^ 32 - 1 - x.

(** the permutations of the message words *)
Definition rho (i : nat) : nat := nth i [7; 4; 13; 1; 10; 6; 15; 3; 12; 0; 9; 5; 2; 14; 11; 8]%nat 0%nat.
Definition pi (i : nat) : nat := ((9 * i + 5) mod 16)%nat.
(** the message word of step j: the identity, rho, rho^2, rho^3, rho^4 in the five rounds of the left line, and the
    same after pi in the right line *)
Definition r (j : nat) : nat := Nat.iter (j / 16) rho (j mod 16)%nat.
Definition r' (j : nat) : nat := Nat.iter (j / 16) rho (pi (j mod 16)).
(** the shifts: in round i (of 5), the amount that goes with each message word, in both lines *)
Definition shifts : list (list Z) :=
  [[11; 14; 15; 12; 5; 8; 7; 9; 11; 13; 14; 15; 6; 7; 9; 8];
   [12; 13; 11; 15; 6; 9; 9; 7; 12; 15; 11; 13; 7; 8; 7; 7];
   [13; 15; 14; 11; 7; 7; 6; 8; 13; 14; 13; 12; 5; 5; 6; 9];
   [14; 11; 12; 14; 8; 6; 5; 5; 15; 12; 15; 14; 9; 9; 8; 6];
   [15; 12; 13; 13; 9; 5; 8; 6; 14; 11; 12; 11; 8; 6; 5; 5]].
Definition shift (round word : nat) : Z := nth word (nth round shifts []) 0.

(** the Boolean functions of the five rounds *)
Definition F (round : nat) (x y z : Z) : Z :=
  match round with
  | 0%nat => Z.lxor (Z.lxor x y) z
  | 1%nat => Z.lor (Z.land x y) (Z.land (inverted x) z)
  | 2%nat => Z.lxor (Z.lor x (inverted y)) z
  | 3%nat => Z.lor (Z.land x z) (Z.land y (inverted z))
  | _ => Z.lxor x (Z.lor y (inverted z))
  end.

(** "take the integer parts of 2^30 times the square roots (left line) and cube roots (right line) of 2, 3, 5 and 7" *)
Definition scaled_root (n p c : Z) : Prop := 0 <= c /\ c ^ n <= p * 2 ^ (30 * n) < (c + 1) ^ n.
Definition left_constants (K : nat -> Z) : Prop :=
  K 0%nat = 0 /\ scaled_root 2 2 (K 1%nat) /\ scaled_root 2 3 (K 2%nat) /\ scaled_root 2 5 (K 3%nat) /\ scaled_root 2 7 (K 4%nat).
Definition right_constants (K : nat -> Z) : Prop :=
  scaled_root 3 2 (K 0%nat) /\ scaled_root 3 3 (K 1%nat) /\ scaled_root 3 5 (K 2%nat) /\ scaled_root 3 7 (K 3%nat) /\ K 4%nat = 0.

(** One line: V j are the variables A, ..., E (numbered 0, ..., 4) after j steps; step j uses function f, constant k,
    message word x and shift s. *)
Definition step (f : Z -> Z -> Z -> Z) (k x s : Z) (v v' : nat -> Z) : Prop :=
  let a := v 0%nat in let b := v 1%nat in let c := v 2%nat in let d := v 3%nat in let e := v 4%nat in
  let t := (rol s ((a + f b c d + x + k) mod 2 ^ 32) + e) mod 2 ^ 32 in
  v' 0%nat = e /\ v' 4%nat = d /\ v' 3%nat = rol 10 c /\ v' 2%nat = b /\ v' 1%nat = t.
Definition same5 (v w : nat -> Z) : Prop := forall i, (i < 5)%nat -> v i = w i.
(** The compression of one block of 16 words X *)
Definition compress (X h h' : nat -> Z) : Prop :=
  exists K K' V V', left_constants K /\ right_constants K' /\
    same5 (V 0%nat) h /\ same5 (V' 0%nat) h /\
    (forall j, (j < 80)%nat ->
       step (F (j / 16)) (K (j / 16)%nat) (X (r j)) (shift (j / 16) (r j)) (V j) (V (S j)) /\
       step (F ((79 - j) / 16)) (K' (j / 16)%nat) (X (r' j)) (shift (j / 16) (r' j)) (V' j) (V' (S j))) /\
    let l := V 80%nat in let r := V' 80%nat in
    h' 0%nat = (h 1%nat + l 2%nat + r 3%nat) mod 2 ^ 32 /\
    h' 1%nat = (h 2%nat + l 3%nat + r 4%nat) mod 2 ^ 32 /\
    h' 2%nat = (h 3%nat + l 4%nat + r 0%nat) mod 2 ^ 32 /\
    h' 3%nat = (h 4%nat + l 0%nat + r 1%nat) mod 2 ^ 32 /\
    h' 4%nat = (h 0%nat + l 1%nat + r 2%nat) mod 2 ^ 32.

(** the padding is that of MD4: a bit 1 (so a byte 128), zeros up to 448 bits modulo 512, the number of bits of the
    message in 64 bits, the least significant byte first *)
Definition rmd_padded (m p : bytes) : Prop :=
  exists k l, p = m ++ [128] ++ repeat 0 k ++ l /\
    (k < 64)%nat /\ ((length m + 1 + k) mod 64 = 56)%nat /\
    length l = 8%nat /\ wf_bytes l /\ le_number l = 8 * Z.of_nat (length m).
Definition initial_value_160 (h : nat -> Z) : Prop :=
  h 0%nat = 0x67452301 /\ h 1%nat = 0xefcdab89 /\ h 2%nat = 0x98badcfe /\ h 3%nat = 0x10325476 /\ h 4%nat = 0xc3d2e1f0.

(** d is the RIPEMD-160 hash value of m *)
Definition is_RIPEMD160 (m d : bytes) : Prop :=
  exists p N H, rmd_padded m p /\ length p = (64 * N)%nat /\ initial_value_160 (H 0%nat) /\
    (forall i, (i < N)%nat -> compress (fun t => le_number (byte_piece 4 t (byte_piece 64 i p))) (H i) (H (S i))) /\
    length d = 20%nat /\ wf_bytes d /\ (forall j, (j < 5)%nat -> le_number (byte_piece 4 j d) = H N j).
