(** Vocabulary of C68: verification as in RFC 8032, section 5.1, with a hash function [H] in the place of
    SHA-512.  Nothing here refers to the model of the library. *)
From Coq Require Import List ZArith.
From Verif Require Import GoBase FieldSpec Fp Curve BasePoint.
Import ListNotations.
Open Scope Z_scope.

(** Section 5.1.3: 32 bytes, little endian; bit 255 is the least significant bit of x, the other bits are
    y.  There is no result if y >= p, if there is no such point, or if x = 0 and the bit is 1. *)
Definition rfc_decodes (raw : bytes) (P : point) : Prop :=
  wf_bytes raw /\ length raw = 32%nat /\
  le_val raw mod 2 ^ 255 = val (py P) /\ le_val raw / 2 ^ 255 = val (px P) mod 2.
(** Section 5.1.7.  1: R, A are decoded and 0 <= S < q.  2: k is the hash of R, A and the message.
    3: [8][S]B = [8]R + [8][k]A is checked; "it's sufficient, but not required" to check [S]B = R + [k]A. *)
Definition rfc_verify (H : list bytes -> bytes) (A m R S : bytes) : Prop :=
  exists PA PR, rfc_decodes A PA /\ rfc_decodes R PR /\ wf_bytes S /\ length S = 32%nat /\ le_val S < q25519 /\
    zmul 8 (zmul (le_val S) Bpt) = padd (zmul 8 PR) (zmul 8 (zmul (le_val (H [R; A; m])) PA)).
Definition rfc_verify_sufficient (H : list bytes -> bytes) (A m R S : bytes) : Prop :=
  exists PA PR, rfc_decodes A PA /\ rfc_decodes R PR /\ wf_bytes S /\ length S = 32%nat /\ le_val S < q25519 /\
    zmul (le_val S) Bpt = padd PR (zmul (le_val (H [R; A; m])) PA).
