(** Vocabulary of C66: CBC mode and the padding of PKCS #7 as in the textbook, without reference to the
    model of the library. *)
From Coq Require Import List ZArith.
From Verif Require Import GoBase Fp Curve GroupSpec ApiSpec PadSpec.
Import ListNotations.
Open Scope nat_scope.

(** the i-th block of 16 bytes *)
Definition block_at (b : bytes) (i : nat) : bytes := firstn 16 (skipn (16 * i) b).
(** each block of [c] enciphers the block of [p] xored with the block of [c] before it; before the first
    one is [iv] *)
Definition cbc (E : bytes -> bytes -> bytes) (key iv p c : bytes) : Prop :=
  length c = length p /\
  forall i, 16 * i < length p -> block_at c i = E key (xors (block_at p i) (block_at (iv ++ c) i)).
(** and back *)
Definition cbc_back (D : bytes -> bytes -> bytes) (key iv c p : bytes) : Prop :=
  length p = length c /\
  forall i, 16 * i < length c -> block_at p i = xors (D key (block_at c i)) (block_at (iv ++ c) i).
(** [p] is [m] and n bytes n, with n from 1 to 16, to a whole number of blocks *)
Definition pkcs7 (m p : bytes) : Prop :=
  exists n, 1 <= n <= 16 /\ p = m ++ repeat (Z.of_nat n) n /\ length p mod 16 = 0.
(** the key of a private key, the other side's point and a salt: the hash of the encoding of the secret
    multiple of the point, xored with the salt *)
Definition agreed_key (H : list bytes -> bytes) (G : bytes -> bytes) (private : bytes) (P : point) (salt : bytes) : bytes :=
  G (xors (enc_point (zmul (secret_scalar H private) P)) salt).
