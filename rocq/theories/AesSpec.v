(** FIPS 197 (AES with a 256-bit key: Nk = 8, Nr = 14), as the standard states it: arithmetic of GF(2^8) (section 4),
    the transformations of the state (5.1), the key expansion (5.2).  No tables.  Vocabulary of property C85. *)
From Coq Require Import List ZArith Bool.
From Verif Require Import GoBase.
Import ListNotations.
Open Scope Z_scope.

(** ** Section 4: bytes as polynomials over GF(2), multiplied modulo x^8 + x^4 + x^3 + x + 1 *)
Definition poly_mul (a b : Z) : Z :=
  fold_left (fun r i => Z.lxor r (if Z.testbit b i then Z.shiftl a i else 0)) [0; 1; 2; 3; 4; 5; 6; 7] 0.
Definition poly_mod (p : Z) : Z :=
  fold_left (fun r i => if Z.testbit r i then Z.lxor r (Z.shiftl 0x11b (i - 8)) else r) [14; 13; 12; 11; 10; 9; 8] p.
Definition gf_mul (a b : Z) : Z := poly_mod (poly_mul a b).
(** the inverse, and 0 for 0: the power 254 = 2 + 4 + ... + 128 (C85_inverse: this is the inverse) *)
Definition gf_inv (a : Z) : Z :=
  let sq x := gf_mul x x in
  let a2 := sq a in let a4 := sq a2 in let a8 := sq a4 in let a16 := sq a8 in
  let a32 := sq a16 in let a64 := sq a32 in let a128 := sq a64 in
  gf_mul a2 (gf_mul a4 (gf_mul a8 (gf_mul a16 (gf_mul a32 (gf_mul a64 a128))))).

(** ** Section 5.1.1: the S-box, the inverse followed by an affine map of the bits *)
Definition SBox (a : Z) : Z :=
  let b i := Z.testbit (gf_inv a) (i mod 8) in
  fold_left (fun r i => r + (if xorb (b i) (xorb (b (i + 4)) (xorb (b (i + 5)) (xorb (b (i + 6)) (xorb (b (i + 7)) (Z.testbit 0x63 i)))))
                             then 2 ^ i else 0)) [0; 1; 2; 3; 4; 5; 6; 7] 0.

(** ** The state: byte s[r, c] of row r and column c; section 3.4 *)
Definition aes_state := nat -> nat -> Z.
Definition state_of (b : bytes) : aes_state := fun r c => nth (r + 4 * c) b 0.
Definition bytes_of (s : aes_state) : bytes := map (fun i => s (i mod 4) (i / 4))%nat (seq 0 16).

Definition SubBytes (s : aes_state) : aes_state := fun r c => SBox (s r c).
Definition ShiftRows (s : aes_state) : aes_state := fun r c => s r ((c + r) mod 4)%nat.
Definition MixColumns (s : aes_state) : aes_state := fun r c =>
  let m k := s ((r + k) mod 4)%nat c in
  Z.lxor (gf_mul 2 (m 0%nat)) (Z.lxor (gf_mul 3 (m 1%nat)) (Z.lxor (m 2%nat) (m 3%nat))).
(** the words of the key schedule: byte r of word i *)
Definition AddRoundKey (w : nat -> nat -> Z) (round : nat) (s : aes_state) : aes_state :=
  fun r c => Z.lxor (s r c) (w (4 * round + c) r)%nat.
(** ** Section 5.1: the cipher *)
Definition Cipher (w : nat -> nat -> Z) (s : aes_state) : aes_state :=
  let middle s round := AddRoundKey w round (MixColumns (ShiftRows (SubBytes s))) in
  AddRoundKey w 14 (ShiftRows (SubBytes (fold_left middle (seq 1 13) (AddRoundKey w 0 s)))).

(** ** Section 5.2: w is the key schedule of the key; Rcon[j] = (x^(j-1), 0, 0, 0) *)
Definition Rcon (j r : nat) : Z := if (r =? 0)%nat then Nat.iter (j - 1) (gf_mul 2) 1 else 0.
Definition key_schedule (key : bytes) (w : nat -> nat -> Z) : Prop :=
  (forall i r, (i < 8)%nat -> (r < 4)%nat -> w i r = nth (4 * i + r) key 0) /\
  (forall i r, (8 <= i < 60)%nat -> (r < 4)%nat ->
     w i r = Z.lxor (w (i - 8)%nat r)
       (if (i mod 8 =? 0)%nat then Z.lxor (SBox (w (i - 1)%nat ((r + 1) mod 4)%nat)) (Rcon (i / 8) r)
        else if (i mod 8 =? 4)%nat then SBox (w (i - 1)%nat r)
        else w (i - 1)%nat r)).
