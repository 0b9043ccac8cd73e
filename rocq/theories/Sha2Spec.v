(** FIPS 180-4 as the standard states SHA-256: the functions (section 4.1.2), the constants (4.2.2, 5.3.3, by the
    description that defines them, not by their digits), the padding (5.1.1), the parsing (5.2.1) and the computation
    (6.2) of a hash value, all as relations on bit strings.  Nothing here mentions bytes or buffers, except [msb_bits],
    the usual reading of a byte string as a bit string.  Vocabulary of property C86. *)
From Coq Require Import List ZArith Bool Znumtheory.
From Verif Require Import GoBase.
Import ListNotations.
Open Scope Z_scope.

(** Bytes as bits, the most significant first. *)
Definition msb_bits (m : bytes) : list bool := flat_map (fun b => map (Z.testbit b) [7; 6; 5; 4; 3; 2; 1; 0]) m.
(** The number a bit string denotes, the most significant bit first. *)
Definition number (l : list bool) : Z := fold_left (fun a b => 2 * a + Z.b2z b) l 0.
(** The i-th piece of n bits. *)
Definition piece (n i : nat) (l : list bool) : list bool := firstn n (skipn (n * i) l).

(** ** Section 2.2.2, 3.2, 4.1.2: operations on 32-bit words *)
Definition SHR (n x : Z) : Z := x / 2 ^ n.
Definition ROTR (n x : Z) : Z := x / 2 ^ n + (x mod 2 ^ n) * 2 ^ (32 - n).
Definition NOT (x : Z) : Z := 2 ^ 32 - 1 - x.
Definition Ch (x y z : Z) : Z := Z.lxor (Z.land x y) (Z.land (NOT x) z).
Definition Maj (x y z : Z) : Z := Z.lxor (Z.lxor (Z.land x y) (Z.land x z)) (Z.land y z).
Definition Sigma0 (x : Z) : Z := Z.lxor (Z.lxor (ROTR 2 x) (ROTR 13 x)) (ROTR 22 x).
Definition Sigma1 (x : Z) : Z := Z.lxor (Z.lxor (ROTR 6 x) (ROTR 11 x)) (ROTR 25 x).
Definition sigma0 (x : Z) : Z := Z.lxor (Z.lxor (ROTR 7 x) (ROTR 18 x)) (SHR 3 x).
Definition sigma1 (x : Z) : Z := Z.lxor (Z.lxor (ROTR 17 x) (ROTR 19 x)) (SHR 10 x).

(** ** Sections 4.2.2, 5.3.3: constants *)
(** p is the prime with exactly t primes below it. *)
Definition prime_number (t : nat) (p : Z) : Prop :=
  prime p /\ exists l, NoDup l /\ length l = t /\ forall q, In q l <-> prime q /\ q < p.
(** c is the first 32 bits of the fractional part of the n-th root of p: the integral part of 2^32 times
    the root, without its integral part. *)
Definition root_fraction (n p c : Z) : Prop :=
  exists r, 0 <= r /\ r ^ n <= p * 2 ^ (32 * n) < (r + 1) ^ n /\ c = r mod 2 ^ 32.
(** "the first thirty-two bits of the fractional parts of the cube roots of the first sixty-four prime numbers" *)
Definition round_constants_256 (K : nat -> Z) : Prop :=
  forall t, (t < 64)%nat -> exists p, prime_number t p /\ root_fraction 3 p (K t).
(** "the first thirty-two bits of the fractional parts of the square roots of the first eight prime numbers" *)
Definition initial_value_256 (H : nat -> Z) : Prop :=
  forall j, (j < 8)%nat -> exists p, prime_number j p /\ root_fraction 2 p (H j).

(** ** Section 5.1.1: the padded message *)
Definition padded_512 (m p : list bool) : Prop :=
  exists k l, p = m ++ [true] ++ repeat false k ++ l /\
    (k < 512)%nat /\ ((length m + 1 + k) mod 512 = 448)%nat /\          (* the smallest solution of l + 1 + k = 448 mod 512 *)
    length l = 64%nat /\ number l = Z.of_nat (length m).

(** ** Section 6.2.2: one block.  M is the block's 16 words, H the hash value before, H' after *)
Definition schedule_256 (M W : nat -> Z) : Prop :=
  (forall t, (t < 16)%nat -> W t = M t) /\
  (forall t, (16 <= t < 64)%nat ->
     W t = (sigma1 (W (t - 2)%nat) + W (t - 7)%nat + sigma0 (W (t - 15)%nat) + W (t - 16)%nat) mod 2 ^ 32).
(** V t are the working variables a, ..., h (numbered 0, ..., 7) after t turns *)
Definition turn_256 (K W : nat -> Z) (V : nat -> nat -> Z) (t : nat) : Prop :=
  let a := V t 0%nat in let b := V t 1%nat in let c := V t 2%nat in let d := V t 3%nat in
  let e := V t 4%nat in let f := V t 5%nat in let g := V t 6%nat in let h := V t 7%nat in
  let T1 := (h + Sigma1 e + Ch e f g + K t + W t) mod 2 ^ 32 in
  let T2 := (Sigma0 a + Maj a b c) mod 2 ^ 32 in
  let v := V (S t) in
  v 7%nat = g /\ v 6%nat = f /\ v 5%nat = e /\ v 4%nat = (d + T1) mod 2 ^ 32 /\
  v 3%nat = c /\ v 2%nat = b /\ v 1%nat = a /\ v 0%nat = (T1 + T2) mod 2 ^ 32.
Definition block_256 (K M H H' : nat -> Z) : Prop :=
  exists W V, schedule_256 M W /\
    (forall j, (j < 8)%nat -> V 0%nat j = H j) /\
    (forall t, (t < 64)%nat -> turn_256 K W V t) /\
    (forall j, (j < 8)%nat -> H' j = (V 64%nat j + H j) mod 2 ^ 32).

(** ** Section 6.2: d is the SHA-256 message digest of m *)
Definition is_SHA256 (m d : list bool) : Prop :=
  exists K p N H, round_constants_256 K /\
    padded_512 m p /\ length p = (512 * N)%nat /\
    initial_value_256 (H 0%nat) /\
    (forall i, (i < N)%nat -> block_256 K (fun t => number (piece 32 t (piece 512 i p))) (H i) (H (S i))) /\
    length d = 256%nat /\ (forall j, (j < 8)%nat -> number (piece 32 j d) = H N j).
