(** Property C77: the signatures accepted under a derived key, one for each nonce.  Statements; the proofs are in
    [PropNonceLemmas].  [H] is SHA3-512 (any function with 64-byte results), [enc_point], [zmul], [Bpt] are the encoding, the
    multiples and the base point of the specification, [challenge] and [secret_scalar] the numbers of the Ed25519 equations. *)
From Coq Require Import List ZArith.
From Verif Require Import GoBase FieldModel FieldSpec Fp Curve BasePoint GroupSpec ScalarSpec ApiModel ApiSpec PropSigLemmas PropNonceLemmas.
Import ListNotations.
Open Scope Z_scope.

(** With S below q, Verify accepts exactly what the signing equations give for some nonce r below q (and passes the test
    of the low 64 bits) ... *)
Theorem C77_accepted_form : forall H, hash_ok 64 H -> forall k pub m, wf_bytes (pk_raw k) -> wf_bytes m ->
  derive_public_key H k = Ok pub -> forall R s, wf_bytes R -> wf_bytes s -> length s = 32%nat -> le_val s < q25519 ->
  (verify H (KeyPair None pub) m (Sig R s) = Ok true <->
   low64 (le_val s) <> 0 /\ low64 (le_val s) <> low64 q25519 /\
   exists r, 0 <= r < q25519 /\ R = enc_point (zmul r Bpt) /\
     s = le_bytes 32 ((r + challenge H R pub m * secret_scalar H (pk_raw k)) mod q25519)).
Proof. exact nonce_form. Qed.
(** ... and every nonce gives one: *)
Theorem C77_every_nonce : forall H, hash_ok 64 H -> forall k pub m, wf_bytes (pk_raw k) -> wf_bytes m ->
  derive_public_key H k = Ok pub -> forall r, 0 <= r < q25519 ->
  let R := enc_point (zmul r Bpt) in
  let v := (r + challenge H R pub m * secret_scalar H (pk_raw k)) mod q25519 in
  exists b, verify H (KeyPair None pub) m (Sig R (le_bytes 32 v)) = Ok b /\
    (b = true <-> low64 v <> 0 /\ low64 v <> low64 q25519).
Proof. exact nonce_every. Qed.
(** different nonces give different signatures. *)
Theorem C77_one_nonce : forall r r', 0 <= r < q25519 -> 0 <= r' < q25519 ->
  enc_point (zmul r Bpt) = enc_point (zmul r' Bpt) -> r = r'.
Proof. exact nonce_unique. Qed.
(** With S up to 2^255: the same modulo q. *)
Theorem C77_accepted_any : forall H, hash_ok 64 H -> forall k pub m, wf_bytes (pk_raw k) -> wf_bytes m ->
  derive_public_key H k = Ok pub -> forall R s, wf_bytes R -> wf_bytes s -> length s = 32%nat -> le_val s <= 2 ^ 255 ->
  (verify H (KeyPair None pub) m (Sig R s) = Ok true <->
   low64 (le_val s) <> 0 /\ low64 (le_val s) <> low64 q25519 /\
   exists r, 0 <= r < q25519 /\ R = enc_point (zmul r Bpt) /\
     (q25519 | le_val s - (r + challenge H R pub m * secret_scalar H (pk_raw k)))).
Proof. exact nonce_any. Qed.
(** Every S: [double_scalar] is the number the verifier makes of S, S itself up to 2^255 and S or S - 2^256 above (C28). *)
Theorem C77_accepted_every : forall H, hash_ok 64 H -> forall k pub m, wf_bytes (pk_raw k) -> wf_bytes m ->
  derive_public_key H k = Ok pub -> forall R s, wf_bytes R -> wf_bytes s -> length s = 32%nat ->
  (verify H (KeyPair None pub) m (Sig R s) = Ok true <->
   low64 (le_val s) <> 0 /\ low64 (le_val s) <> low64 q25519 /\
   exists r, 0 <= r < q25519 /\ R = enc_point (zmul r Bpt) /\
     (q25519 | double_scalar (le_val s) - (r + challenge H R pub m * secret_scalar H (pk_raw k)))).
Proof. exact nonce_all. Qed.
(** So R is the canonical encoding of a point of the subgroup of order q, never of small order but the neutral element. *)
Theorem C77_R : forall H, hash_ok 64 H -> forall k pub m, wf_bytes (pk_raw k) -> wf_bytes m ->
  derive_public_key H k = Ok pub -> forall R s, wf_bytes R -> wf_bytes s -> length s = 32%nat ->
  verify H (KeyPair None pub) m (Sig R s) = Ok true ->
  exists P, R = enc_point P /\ zmul q25519 P = pzero /\ (zmul 8 P = pzero -> P = pzero).
Proof. exact nonce_R. Qed.
(** The accepted signature that Sign returns is the one whose R is of its own nonce; Verify cannot tell it from the others. *)
Theorem C77_signed : forall H, hash_ok 64 H -> forall k pub m, wf_bytes (pk_raw k) -> wf_bytes m ->
  derive_public_key H k = Ok pub -> forall sg R s, sign H (KeyPair (Some k) pub) m = Ok sg ->
  wf_bytes R -> wf_bytes s -> length s = 32%nat -> le_val s < q25519 ->
  verify H (KeyPair None pub) m (Sig R s) = Ok true ->
  (Sig R s = sg <-> R = enc_point (zmul (nonce H (pk_raw k) m) Bpt)).
Proof. exact nonce_signed. Qed.
(** two accepted signatures of one message, of different nonces. *)
Example C77_nonvacuous : exists k pub m r1 r2 s1 s2, wf_bytes (pk_raw k) /\ wf_bytes m /\ derive_public_key H7 k = Ok pub /\
  0 <= r1 < q25519 /\ 0 <= r2 < q25519 /\ r1 <> r2 /\ wf_bytes s1 /\ wf_bytes s2 /\ length s1 = 32%nat /\ length s2 = 32%nat /\
  le_val s1 < q25519 /\ le_val s2 < q25519 /\
  verify H7 (KeyPair None pub) m (Sig (enc_point (zmul r1 Bpt)) s1) = Ok true /\
  verify H7 (KeyPair None pub) m (Sig (enc_point (zmul r2 Bpt)) s2) = Ok true.
Proof. exact ex_nonces. Qed.
Example C77_nonvacuous_sign : hash_ok 64 H7 /\ exists k m kp sg, wf_bytes (pk_raw k) /\ wf_bytes m /\
  new_key_pair H7 (Some k) None = Ok kp /\ sign H7 kp m = Ok sg /\ low64 (le_val (sS sg) + q25519) <> 0.
Proof. exact (conj H7_ok ex_sign). Qed.

Print Assumptions C77_accepted_form.
Print Assumptions C77_every_nonce.
Print Assumptions C77_one_nonce.
Print Assumptions C77_accepted_any.
Print Assumptions C77_R.
Print Assumptions C77_signed.
Print Assumptions C77_accepted_every.
