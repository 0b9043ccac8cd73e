(** Specification vocabulary for the API properties: hash functions, the numbers of the Ed25519
    equations, block ciphers.  Nothing here mentions the implementation of an operation. *)
From Verif Require Import GoBase FieldSpec Fp Curve BasePoint GroupSpec.
Open Scope Z_scope.

(** a (variadic) hash function with n-byte output *)
Definition hash_ok (n : nat) (H : list bytes -> bytes) : Prop :=
  forall parts, Forall wf_bytes parts -> length (H parts) = n /\ wf_bytes (H parts).
Definition hash1_ok (n : nat) (H : bytes -> bytes) : Prop :=
  forall b, wf_bytes b -> length (H b) = n /\ wf_bytes (H b).

(** low 64 bits *)
Definition low64 (v : Z) : Z := v mod 2 ^ 64.

Section Equations.
Variable H : list bytes -> bytes.
(** the secret scalar of a private key: the low 32 bytes of H(key) with bits 0,1,2 and 255 cleared
    and bit 254 set *)
Definition secret_scalar (key : bytes) : Z :=
  2 ^ 254 + 8 * ((le_val (firstn 32 (H [key])) mod 2 ^ 254) / 8).
(** the public point and its encoding *)
Definition public_point (key : bytes) : point := zmul (secret_scalar key) Bpt.
Definition public_key_of (key : bytes) : bytes := enc_point (public_point key).
(** r, R, h, S of the signature equations *)
Definition nonce (key mess : bytes) : Z := le_val (H [skipn 32 (H [key]); mess]) mod q25519.
Definition sig_R (key mess : bytes) : bytes := enc_point (zmul (nonce key mess) Bpt).
Definition challenge (R A mess : bytes) : Z := le_val (H [R; A; mess]) mod q25519.
Definition sig_S (key pub mess : bytes) : Z :=
  (nonce key mess + challenge (sig_R key mess) pub mess * secret_scalar key) mod q25519.
End Equations.

(** a block cipher with 32-byte keys and 16-byte blocks *)
Definition block (b : bytes) : Prop := wf_bytes b /\ length b = 16%nat.
Definition cipher_ok (E D : bytes -> bytes -> bytes) : Prop :=
  forall k, wf_bytes k -> length k = 32%nat -> forall b, block b ->
    block (E k b) /\ block (D k b) /\ D k (E k b) = b /\ E k (D k b) = b.
