(** Keys, signatures and encrypted messages described by the standards alone, for an implementation by somebody else:
    SHA-3 ([FipsSpec], FIPS 202), AES-256 ([AesSpec], FIPS 197), CBC and PKCS #7 ([CipherSpec]), the curve and its
    encoding ([Curve], [GroupSpec]).  No function of the library's model appears here.  Vocabulary of property C88. *)
From Coq Require Import List ZArith.
From Verif Require Import GoBase FieldSpec Fp Curve BasePoint GroupSpec FipsSpec AesSpec PadSpec CipherSpec.
Import ListNotations.
Open Scope Z_scope.

(** d is the digest of m *)
Definition is_SHA3_512 (m d : bytes) : Prop := wf_bytes d /\ length d = 64%nat /\ bits_of d = SHA3_512 (bits_of m).
Definition is_SHA3_256 (m d : bytes) : Prop := wf_bytes d /\ length d = 32%nat /\ bits_of d = SHA3_256 (bits_of m).
(** c is the block b enciphered *)
Definition is_AES256 (key b c : bytes) : Prop := exists w, key_schedule key w /\ c = bytes_of (Cipher w (state_of b)).

(** the scalar and the prefix of a private key *)
Definition clamped (d : bytes) : Z := 2 ^ 254 + 8 * ((le_val (firstn 32 d) mod 2 ^ 254) / 8).
Definition std_secret (private : bytes) (a : Z) (prefix : bytes) : Prop :=
  exists d, is_SHA3_512 private d /\ a = clamped d /\ prefix = skipn 32 d.
Definition std_public (private pub : bytes) : Prop :=
  exists a prefix, std_secret private a prefix /\ pub = enc_point (zmul a Bpt).
(** the 64 bytes of a signature *)
Definition std_signature (private pub m sig : bytes) : Prop :=
  exists a prefix dr dh, std_secret private a prefix /\
    is_SHA3_512 (prefix ++ m) dr /\
    let r := le_val dr mod q25519 in
    let R := enc_point (zmul r Bpt) in
    is_SHA3_512 (R ++ pub ++ m) dh /\
    let h := le_val dh mod q25519 in
    sig = R ++ le_bytes 32 ((r + h * a) mod q25519).
(** the key for the other side's public key and a salt *)
Definition std_key (private other salt key : bytes) : Prop :=
  exists a prefix P, std_secret private a prefix /\ denotes other P /\ is_SHA3_256 (xors (enc_point (zmul a P)) salt) key.
(** the bytes of an encrypted message with a given salt and iv *)
Definition std_message (private other salt iv m out : bytes) : Prop :=
  exists key p c, std_key private other salt key /\ pkcs7 m p /\ length c = length p /\
    (forall i, (16 * i < length p)%nat -> is_AES256 key (xors (block_at p i) (block_at (iv ++ c) i)) (block_at c i)) /\
    out = salt ++ iv ++ c.
