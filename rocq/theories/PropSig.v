(** Properties C01 - C12: signing and verification.  Statements; the proofs are in [ApiProofs],
    [VerifyProofs], [PropSigLemmas].  All theorems hold for every 64-byte-output hash function [H]
    in place of SHA3-512 ([hash_ok 64 H]; the SHA3-512 of the library is an instance, see PropHash).
    A [keypair] with [None] for the private key is the pair built from a public key alone. *)
From Coq Require Import List ZArith Lia Bool.
From Verif Require Import GoBase FieldModel FieldSpec Fp Curve BasePoint GroupModel GroupSpec ScalarModel
  ApiModel ApiSpec ApiProofs VerifyProofs PropSigLemmas ExampleLemmas.
Import ListNotations.
Open Scope Z_scope.

(** C01.  Every signature made with a derived pair is accepted, by the pair itself and by the pair
    rebuilt from the public key alone. *)
Theorem C01_sign_then_verify : forall H, hash_ok 64 H -> forall k m kp sg,
  wf_bytes (pk_raw k) -> wf_bytes m ->
  new_key_pair H (Some k) None = Ok kp -> sign H kp m = Ok sg -> verify H kp m sg = Ok true.
Proof. exact sign_verify_pair. Qed.
Theorem C01_sign_then_verify_public_only : forall H, hash_ok 64 H -> forall k m kp sg,
  wf_bytes (pk_raw k) -> wf_bytes m ->
  new_key_pair H (Some k) None = Ok kp -> sign H kp m = Ok sg ->
  exists kp', new_key_pair H None (Some (kp_pub kp)) = Ok kp' /\ verify H kp' m sg = Ok true.
Proof. exact sign_verify_pub. Qed.
Example C01_nonvacuous : hash_ok 64 H7 /\ exists k m kp sg, wf_bytes (pk_raw k) /\ wf_bytes m /\
  new_key_pair H7 (Some k) None = Ok kp /\ sign H7 kp m = Ok sg /\ low64 (le_val (sS sg) + q25519) <> 0.
Proof. exact (conj H7_ok ex_sign). Qed.

(** C02.  Sign returns a 32 + 32 byte signature with S < q, or the error "not canonical"; never
    another error, never a panic (every public key bytes, matching or not, of any length). *)
Theorem C02_sign_total : forall H, hash_ok 64 H -> forall k m pub,
  wf_bytes (pk_raw k) -> wf_bytes m -> wf_bytes pub ->
  (exists sg, sign H (KeyPair (Some k) pub) m = Ok sg /\ length (sR sg) = 32%nat /\ length (sS sg) = 32%nat /\
     wf_bytes (sR sg) /\ wf_bytes (sS sg) /\ le_val (sS sg) = sig_S H (pk_raw k) pub m /\ le_val (sS sg) < q25519) \/
  sign H (KeyPair (Some k) pub) m = Err ErrNotCanonical.
Proof. exact sign_total. Qed.
Theorem C02_sign_fails_iff : forall H, hash_ok 64 H -> forall k m pub,
  wf_bytes (pk_raw k) -> wf_bytes m -> wf_bytes pub ->
  (sign H (KeyPair (Some k) pub) m = Err ErrNotCanonical <->
   low64 (sig_S H (pk_raw k) pub m) = 0 \/ low64 (sig_S H (pk_raw k) pub m) = low64 q25519).
Proof. exact sign_fails_iff. Qed.

(** both outcomes occur: with [H7] (every hash is sixty-four bytes 7) and with [Hz] (sixty-four bytes 0) *)
Example C02_nonvacuous : hash_ok 64 H7 /\ hash_ok 64 Hz /\
  (exists k pub m sg, wf_bytes (pk_raw k) /\ wf_bytes m /\ wf_bytes pub /\ sign H7 (KeyPair (Some k) pub) m = Ok sg) /\
  (exists k pub m, wf_bytes (pk_raw k) /\ wf_bytes m /\ wf_bytes pub /\ sign Hz (KeyPair (Some k) pub) m = Err ErrNotCanonical).
Proof. exact (conj H7_ok (conj Hz_ok (conj ex_sign_pub ex_sign_fails))). Qed.

(** C03.  The Ed25519 equations.  [secret_scalar] is given bit by bit in [C12_secret_scalar_bits]. *)
Theorem C03_sign_equations : forall H, hash_ok 64 H -> forall k m pub sg,
  wf_bytes (pk_raw k) -> wf_bytes m -> wf_bytes pub ->
  sign H (KeyPair (Some k) pub) m = Ok sg ->
  exists a r h,
    a = secret_scalar H (pk_raw k) /\
    r = le_val (H [skipn 32 (H [pk_raw k]); m]) mod q25519 /\
    sR sg = enc_point (zmul r Bpt) /\
    h = le_val (H [sR sg; pub; m]) mod q25519 /\
    sS sg = le_bytes 32 ((r + h * a) mod q25519).
Proof. exact sign_equations. Qed.

Example C03_nonvacuous : hash_ok 64 H7 /\
  exists k pub m sg, wf_bytes (pk_raw k) /\ wf_bytes m /\ wf_bytes pub /\ sign H7 (KeyPair (Some k) pub) m = Ok sg.
Proof. exact (conj H7_ok ex_sign_pub). Qed.

(** C04.  Verify decides the equation R = enc([S]B - [h]A). *)
Theorem C04_verify_exact : forall H, hash_ok 64 H -> forall kp m sg,
  wf_bytes (kp_pub kp) -> wf_bytes m -> wf_bytes (sR sg) -> wf_bytes (sS sg) ->
  length (kp_pub kp) = 32%nat -> length (sS sg) = 32%nat -> le_val (sS sg) <= 2 ^ 255 ->
  exists b, verify H kp m sg = Ok b /\ (b = true <->
    (low64 (le_val (sS sg)) <> 0 /\ low64 (le_val (sS sg)) <> low64 q25519) /\
    kp_pub kp <> all_zero 32 /\
    exists A, denotes (kp_pub kp) A /\
      sR sg = enc_point (psub (zmul (le_val (sS sg)) Bpt) (zmul (challenge H (sR sg) (kp_pub kp) m) A))).
Proof. exact verify_exact. Qed.
(** for S above 2^255 the verifier uses S or S - 2^256 *)
Theorem C04_verify_large_S : forall H, hash_ok 64 H -> forall kp m sg,
  wf_bytes (kp_pub kp) -> wf_bytes m -> wf_bytes (sR sg) -> wf_bytes (sS sg) ->
  length (kp_pub kp) = 32%nat -> length (sS sg) = 32%nat -> verify H kp m sg = Ok true ->
  exists A v, (v = le_val (sS sg) \/ v = le_val (sS sg) - 2 ^ 256) /\ denotes (kp_pub kp) A /\
      sR sg = enc_point (psub (zmul v Bpt) (zmul (challenge H (sR sg) (kp_pub kp) m) A)).
Proof. exact verify_large. Qed.
Example C04_nonvacuous : exists pub m R s, wf_bytes pub /\ wf_bytes m /\ wf_bytes R /\ wf_bytes s /\
  length pub = 32%nat /\ length R = 32%nat /\ length s = 32%nat /\ le_val s < q25519 /\ pub <> neutral_key /\
  verify H7 (KeyPair None pub) m (Sig R s) = Ok true.
Proof. exact ex_accepted. Qed.

(** C05.  Non-malleability fails: S + q is accepted along with S, for every honest signature (but
    the 1 in 2^64 where S + q has 64 low zero bits) ... *)
Theorem C05_malleable : forall H, hash_ok 64 H -> forall k m kp sg,
  wf_bytes (pk_raw k) -> wf_bytes m ->
  new_key_pair H (Some k) None = Ok kp -> sign H kp m = Ok sg ->
  low64 (le_val (sS sg) + q25519) <> 0 ->
  sS sg <> le_bytes 32 (le_val (sS sg) + q25519) /\
  verify H kp m (Sig (sR sg) (le_bytes 32 (le_val (sS sg) + q25519))) = Ok true.
Proof. exact honest_malleable. Qed.
(** ... and for every accepted signature S + n q, as long as it is at most 2^255 and passes the
    low-64-bit test *)
Theorem C05_malleable_general : forall H, hash_ok 64 H -> forall pub m R,
  wf_bytes pub -> wf_bytes m -> wf_bytes R -> length pub = 32%nat ->
  forall s n, wf_bytes s -> length s = 32%nat -> 0 <= n -> le_val s + n * q25519 <= 2 ^ 255 ->
  low64 (le_val s + n * q25519) <> 0 -> low64 (le_val s + n * q25519) <> low64 q25519 ->
  verify H (KeyPair None pub) m (Sig R s) = Ok true ->
  verify H (KeyPair None pub) m (Sig R (le_bytes 32 (le_val s + n * q25519))) = Ok true.
Proof. exact malleable. Qed.
Theorem C05_malleable_every_message : forall H, hash_ok 64 H -> forall m, wf_bytes m ->
  exists R s s', s <> s' /\ length s = 32%nat /\ length s' = 32%nat /\
  verify H (KeyPair None neutral_key) m (Sig R s) = Ok true /\
  verify H (KeyPair None neutral_key) m (Sig R s') = Ok true.
Proof. exact refute_malleable. Qed.
(** the accepted S, exactly *)
Theorem C05_accepted_class : forall H, hash_ok 64 H -> forall pub m R,
  wf_bytes pub -> wf_bytes m -> wf_bytes R -> length pub = 32%nat ->
  forall s s', wf_bytes s -> wf_bytes s' -> length s = 32%nat -> length s' = 32%nat ->
  le_val s <= 2 ^ 255 -> le_val s' <= 2 ^ 255 ->
  verify H (KeyPair None pub) m (Sig R s) = Ok true ->
  (verify H (KeyPair None pub) m (Sig R s') = Ok true <->
   (q25519 | le_val s - le_val s') /\ low64 (le_val s') <> 0 /\ low64 (le_val s') <> low64 q25519).
Proof. exact accepted_class. Qed.
Theorem C05_unique_below_q : forall H, hash_ok 64 H -> forall pub m R,
  wf_bytes pub -> wf_bytes m -> wf_bytes R -> length pub = 32%nat ->
  forall s s', wf_bytes s -> wf_bytes s' -> length s = 32%nat -> length s' = 32%nat ->
  le_val s < q25519 -> le_val s' < q25519 ->
  verify H (KeyPair None pub) m (Sig R s) = Ok true ->
  verify H (KeyPair None pub) m (Sig R s') = Ok true -> s = s'.
Proof. exact unique_S. Qed.

Example C05_nonvacuous : hash_ok 64 H7 /\ exists k m kp sg, wf_bytes (pk_raw k) /\ wf_bytes m /\
  new_key_pair H7 (Some k) None = Ok kp /\ sign H7 kp m = Ok sg /\ low64 (le_val (sS sg) + q25519) <> 0.
Proof. exact (conj H7_ok ex_sign). Qed.

(** C06.  The test looks at the low 64 bits of S only. *)
Theorem C06_canonical_iff : forall sg, wf_bytes (sS sg) ->
  (is_canonical_signature sg = true <->
   low64 (le_val (sS sg)) <> 0 /\ low64 (le_val (sS sg)) <> low64 q25519).
Proof. exact canonical_iff. Qed.
Theorem C06_not_the_range_test :
  (exists s, length s = 32%nat /\ wf_bytes s /\ is_canonical_signature (Sig (all_zero 32) s) = true /\ q25519 < le_val s) /\
  (exists s, length s = 32%nat /\ wf_bytes s /\ is_canonical_signature (Sig (all_zero 32) s) = false /\ 0 < le_val s < q25519).
Proof. exact ex_canonical_wrong. Qed.
Theorem C06_rejects_0_and_q : forall sg, wf_bytes (sS sg) -> is_canonical_signature sg = true ->
  le_val (sS sg) <> 0 /\ le_val (sS sg) <> q25519.
Proof. exact canonical_partial. Qed.

(** C07.  MakeSignatureCanonical: S mod q (of the first 64 bytes of S), R kept. *)
Theorem C07_make_canonical : forall r s, wf_bytes s -> length r = 32%nat -> length s = 32%nat ->
  make_signature_canonical (Sig r s) = Ok (Sig r (le_bytes 32 (le_val s mod q25519))).
Proof. exact make_canonical_32. Qed.
Theorem C07_make_canonical_any_length : forall r s, wf_bytes s -> length r = 32%nat ->
  make_signature_canonical (Sig r s) = Ok (Sig r (le_bytes 32 (le_val (firstn 64 s) mod q25519))).
Proof. exact make_canonical_ok. Qed.
Theorem C07_make_canonical_bad_R : forall r s, wf_bytes s -> length r <> 32%nat ->
  make_signature_canonical (Sig r s) = Err ErrNewSignature.
Proof. exact make_canonical_bad. Qed.
Theorem C07_idempotent : forall sg sg', wf_bytes (sS sg) -> length (sR sg) = 32%nat -> length (sS sg) = 32%nat ->
  make_signature_canonical sg = Ok sg' -> make_signature_canonical sg' = Ok sg'.
Proof. exact make_canonical_idem. Qed.
(** verification is preserved for S <= 2^255 ... *)
Theorem C07_preserves_verification : forall H, hash_ok 64 H -> forall pub m r s sg',
  wf_bytes pub -> wf_bytes m -> wf_bytes r -> wf_bytes s ->
  length pub = 32%nat -> length r = 32%nat -> length s = 32%nat -> le_val s <= 2 ^ 255 ->
  verify H (KeyPair None pub) m (Sig r s) = Ok true ->
  make_signature_canonical (Sig r s) = Ok sg' -> is_canonical_signature sg' = true ->
  verify H (KeyPair None pub) m sg' = Ok true.
Proof. exact make_canonical_verify. Qed.
(** ... and not always above *)
Theorem C07_large_S_not_preserved : forall H, hash_ok 64 H -> forall m, wf_bytes m ->
  exists R s sg', length R = 32%nat /\ length s = 32%nat /\ wf_bytes R /\ wf_bytes s /\
   verify H (KeyPair None neutral_key) m (Sig R s) = Ok true /\
   make_signature_canonical (Sig R s) = Ok sg' /\
   is_canonical_signature sg' = true /\ verify H (KeyPair None neutral_key) m sg' = Ok false.
Proof. exact refute_make_canonical. Qed.

Example C07_nonvacuous : exists r s : bytes, wf_bytes s /\ length r = 32%nat /\ length s = 32%nat /\ q25519 < le_val s <= 2 ^ 255 /\
  le_val s mod q25519 = 5.
Proof. exact ex_canonical. Qed.

(** C08.  Verify never panics: public keys of every length, S parts of at least 32 bytes. *)
Theorem C08_verify_total : forall H, hash_ok 64 H -> forall kp m sg,
  wf_bytes (kp_pub kp) -> wf_bytes m -> wf_bytes (sR sg) -> wf_bytes (sS sg) ->
  (32 <= length (sS sg))%nat -> exists b, verify H kp m sg = Ok b.
Proof. exact verify_total. Qed.
Theorem C08_R_of_wrong_length : forall H, hash_ok 64 H -> forall kp m sg,
  wf_bytes (kp_pub kp) -> wf_bytes m -> wf_bytes (sR sg) -> wf_bytes (sS sg) ->
  (32 <= length (sS sg))%nat -> length (sR sg) <> 32%nat -> verify H kp m sg = Ok false.
Proof. exact verify_bad_R. Qed.
Theorem C08_short_S_panics : forall H, hash_ok 64 H -> forall kp m sg,
  wf_bytes (kp_pub kp) -> wf_bytes m -> wf_bytes (sR sg) ->
  (length (sS sg) < 32)%nat -> length (kp_pub kp) = 32%nat -> is_canonical_signature sg = true ->
  kp_pub kp <> all_zero 32 -> (exists A, denotes (kp_pub kp) A) -> verify H kp m sg = Panic.
Proof. exact verify_short_S. Qed.

Example C08_nonvacuous : exists pub sg, wf_bytes pub /\ length pub = 32%nat /\ pub <> all_zero 32 /\ (exists A, denotes pub A) /\
  wf_bytes (sR sg) /\ (length (sS sg) < 32)%nat /\ is_canonical_signature sg = true.
Proof. exact ex_short_S. Qed.

(** C09.  Lengths other than 32 and 64 are rejected; 64 bytes are accepted. *)
Theorem C09_wrong_length : forall H, hash_ok 64 H -> forall kp m sg,
  wf_bytes (kp_pub kp) -> wf_bytes m -> wf_bytes (sR sg) ->
  length (kp_pub kp) <> 32%nat -> length (kp_pub kp) <> 64%nat -> verify H kp m sg = Ok false.
Proof. exact verify_bad_pub. Qed.
Theorem C09_64_bytes : forall H, hash_ok 64 H -> forall kp m sg,
  wf_bytes (kp_pub kp) -> wf_bytes m -> wf_bytes (sR sg) -> wf_bytes (sS sg) ->
  length (kp_pub kp) = 64%nat -> length (sS sg) = 32%nat -> le_val (sS sg) <= 2 ^ 255 ->
  exists b, verify H kp m sg = Ok b /\ (b = true <->
    (low64 (le_val (sS sg)) <> 0 /\ low64 (le_val (sS sg)) <> low64 q25519) /\
    exists A, denotes (firstn 32 (kp_pub kp)) A /\
      sR sg = enc_point (psub (zmul (le_val (sS sg)) Bpt) (zmul (challenge H (sR sg) (kp_pub kp) m) A))).
Proof. exact verify_64. Qed.
Theorem C09_64_bytes_accepted_example : forall H, hash_ok 64 H -> forall m, wf_bytes m ->
  verify H (KeyPair None (neutral_key ++ all_zero 32)) m (Sig (enc_point Bpt) (le_bytes 32 1)) = Ok true.
Proof. exact neutral_64. Qed.

(** C10.  The all-zero key never verifies; the neutral key verifies a fixed signature for every
    message, with no private key involved. *)
Theorem C10_zero_key : forall H kp m sg, kp_pub kp = all_zero 32 -> verify H kp m sg = Ok false.
Proof. exact verify_zero. Qed.
Theorem C10_neutral_key_accepts : forall H, hash_ok 64 H -> forall m s, wf_bytes m -> 0 < s <= 2 ^ 255 ->
  low64 s <> 0 -> low64 s <> low64 q25519 ->
  verify H (KeyPair None neutral_key) m (Sig (enc_point (zmul s Bpt)) (le_bytes 32 s)) = Ok true.
Proof. exact neutral_accepts_small. Qed.
Example C10_nonvacuous : neutral_key = 1 :: all_zero 31 /\ low64 5 <> 0 /\ low64 5 <> low64 q25519.
Proof. split; [reflexivity|split; vm_compute; discriminate]. Qed.

(** C11. *)
Theorem C11_sign_without_private_key : forall H pub m, sign H (KeyPair None pub) m = Err ErrNoPrivateKey.
Proof. reflexivity. Qed.

(** C12.  Derivation, for private keys of every length. *)
Theorem C12_derive : forall H, hash_ok 64 H -> forall k, wf_bytes (pk_raw k) ->
  derive_public_key H k = Ok (public_key_of H (pk_raw k)) /\
  length (public_key_of H (pk_raw k)) = 32%nat /\
  exists g, g_decode (public_key_of H (pk_raw k)) = Ok g /\ repc P3 g (zmul (secret_scalar H (pk_raw k)) Bpt).
Proof. exact derive_total. Qed.
Theorem C12_secret_scalar : forall H, hash_ok 64 H -> forall key, wf_bytes key ->
  (8 | secret_scalar H key) /\ 2 ^ 254 <= secret_scalar H key < 2 ^ 255 /\ length (H [key]) = 64%nat.
Proof. exact scalar_shape. Qed.
Theorem C12_secret_scalar_bits : forall H key i, 0 <= i ->
  Z.testbit (secret_scalar H key) i =
    if i =? 254 then true else if (i <? 3) || (254 <? i) then false
    else Z.testbit (le_val (firstn 32 (H [key]))) i.
Proof. exact secret_scalar_bits. Qed.

Print Assumptions C01_sign_then_verify.
Print Assumptions C01_sign_then_verify_public_only.
Print Assumptions C02_sign_total.
Print Assumptions C02_sign_fails_iff.
Print Assumptions C03_sign_equations.
Print Assumptions C04_verify_exact.
Print Assumptions C04_verify_large_S.
Print Assumptions C05_malleable.
Print Assumptions C05_malleable_general.
Print Assumptions C05_malleable_every_message.
Print Assumptions C05_accepted_class.
Print Assumptions C05_unique_below_q.
Print Assumptions C09_64_bytes.
Print Assumptions C06_canonical_iff.
Print Assumptions C06_not_the_range_test.
Print Assumptions C06_rejects_0_and_q.
Print Assumptions C07_make_canonical.
Print Assumptions C07_make_canonical_any_length.
Print Assumptions C07_make_canonical_bad_R.
Print Assumptions C07_idempotent.
Print Assumptions C07_preserves_verification.
Print Assumptions C07_large_S_not_preserved.
Print Assumptions C08_verify_total.
Print Assumptions C08_R_of_wrong_length.
Print Assumptions C08_short_S_panics.
Print Assumptions C09_wrong_length.
Print Assumptions C09_64_bytes_accepted_example.
Print Assumptions C10_zero_key.
Print Assumptions C10_neutral_key_accepts.
Print Assumptions C11_sign_without_private_key.
Print Assumptions C12_derive.
Print Assumptions C12_secret_scalar.
Print Assumptions C12_secret_scalar_bits.
