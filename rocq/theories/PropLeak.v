(** Property C60: what branches tell.  Statements; the proofs are in [LeakProofs] and [PropLeakLemmas].
    A trace is the list of outcomes of the conditions a call evaluates, lengths it tests and table rows
    it takes ([LeakModel]); [scalar_in] reads a number off a trace and [elsewhere] is a trace without
    the conditions in cmov ([LeakSpec]).  [H] is SHA3-512, [G] SHA3-256. *)
From Coq Require Import List ZArith Lia Bool.
From Verif Require Import GoBase FieldModel FieldSpec Fp Curve BasePoint GroupModel GroupSpec ScalarMul TableProofs
  ApiModel ApiSpec PropSigLemmas CipherProofs LeakModel LeakSpec LeakProofs PropLeakLemmas.
Import ListNotations.
Open Scope Z_scope.

(** the functions with traces return what the functions of the other models return *)
Theorem C60_same_results :
  (forall g pos b, snd (l_select g pos b) = g_select g pos b) /\
  (forall g a, snd (l_scalarMultiply g a) = g_scalarMultiply g a) /\
  (forall H k, snd (l_derive H k) = derive_public_key H k) /\
  (forall H kp m, snd (l_sign H kp m) = sign H kp m) /\
  (forall H G n priv pub salt, snd (l_get_shared_key H G n priv pub salt) = get_shared_key H G n priv pub salt).
Proof. exact (conj same_select (conj same_scalarMultiply (conj same_derive (conj same_sign same_shared_key)))). Qed.

(** C60.  Select is documented to branch on no secret; but its branches tell which digit was looked up *)
Theorem C60_select_tells_the_digit : forall g rows P pos b1 b2, single g = Some rows -> single_table rows P -> (pos < 32)%nat ->
  -8 <= b1 <= 8 -> -8 <= b2 <= 8 -> fst (l_select g pos b1) = fst (l_select g pos b2) <-> b1 = b2.
Proof. exact select_leaks. Qed.
(** scalarMultiply is documented to be constant time; but its branches tell the scalar *)
Theorem C60_multiplication_tells_the_scalar : forall g rows P a, single g = Some rows -> single_table rows P ->
  wf_bytes a -> (32 <= length a)%nat -> le_val (firstn 32 a) < 2 ^ 255 ->
  scalar_in (fst (l_scalarMultiply g a)) = le_val (firstn 32 a).
Proof. exact read_off. Qed.
(** two multiplications, of whatever points, branch alike if and only if the scalars are the same *)
Theorem C60_branches_alike_iff_same_scalar : forall g1 g2 rows1 rows2 P1 P2 a1 a2,
  single g1 = Some rows1 -> single_table rows1 P1 -> single g2 = Some rows2 -> single_table rows2 P2 ->
  wf_bytes a1 -> length a1 = 32%nat -> le_val a1 < 2 ^ 255 -> wf_bytes a2 -> length a2 = 32%nat -> le_val a2 < 2 ^ 255 ->
  fst (l_scalarMultiply g1 a1) = fst (l_scalarMultiply g2 a2) <-> a1 = a2.
Proof. exact traces_equal. Qed.
(** the conditions in cmov are all that tells: the rest is the same for all scalars and points *)
Theorem C60_nothing_else : forall g1 g2 rows1 rows2 P1 P2 a1 a2,
  single g1 = Some rows1 -> single_table rows1 P1 -> single g2 = Some rows2 -> single_table rows2 P2 ->
  wf_bytes a1 -> (32 <= length a1)%nat -> wf_bytes a2 -> (32 <= length a2)%nat ->
  elsewhere (fst (l_scalarMultiply g1 a1)) = elsewhere (fst (l_scalarMultiply g2 a2)).
Proof. exact otherwise_same. Qed.
Example C60_nonvacuous_multiply : exists g rows P a1 a2, single g = Some rows /\ single_table rows P /\
  wf_bytes a1 /\ length a1 = 32%nat /\ le_val a1 < 2 ^ 255 /\ wf_bytes a2 /\ length a2 = 32%nat /\ le_val a2 < 2 ^ 255 /\ a1 <> a2.
Proof. exact ex_table. Qed.

(** the branches of deriving a public key tell the private scalar *)
Theorem C60_derivation_tells_the_private_scalar : forall H, hash_ok 64 H -> forall k, wf_bytes (pk_raw k) ->
  scalar_in (fst (l_derive H k)) = secret_scalar H (pk_raw k).
Proof. exact derive_scalar. Qed.
(** so do those of computing a shared key, with whatever valid public key *)
Theorem C60_shared_key_tells_the_private_scalar : forall H, hash_ok 64 H -> forall G k pub salt P,
  wf_bytes (pk_raw k) -> wf_bytes pub -> length pub = 32%nat -> denotes pub P -> length salt = 32%nat ->
  scalar_in (fst (l_get_shared_key H G 32 (Some k) pub salt)) = secret_scalar H (pk_raw k).
Proof. exact shared_scalar. Qed.
(** those of signing tell the nonce *)
Theorem C60_signing_tells_the_nonce : forall H, hash_ok 64 H -> forall k pub m sg,
  wf_bytes (pk_raw k) -> wf_bytes pub -> wf_bytes m -> sign H (KeyPair (Some k) pub) m = Ok sg ->
  scalar_in (fst (l_sign H (KeyPair (Some k) pub) m)) = nonce H (pk_raw k) m.
Proof. exact sign_nonce. Qed.
(** and with the signature the private scalar modulo q, which suffices to sign anything *)
Theorem C60_signing_tells_the_private_scalar : forall H, hash_ok 64 H -> forall k pub m sg,
  wf_bytes (pk_raw k) -> wf_bytes pub -> wf_bytes m -> sign H (KeyPair (Some k) pub) m = Ok sg ->
  let h := challenge H (sR sg) pub m in
  ~ (q25519 | h) -> secret_scalar H (pk_raw k) mod q25519 =
    ((le_val (sS sg) - scalar_in (fst (l_sign H (KeyPair (Some k) pub) m))) * h ^ (q25519 - 2)) mod q25519.
Proof. exact sign_solves. Qed.
Theorem C60_signing_lets_forge : forall H, hash_ok 64 H -> forall k pub0 pub m sg m' r,
  wf_bytes (pk_raw k) -> wf_bytes pub0 -> wf_bytes m -> wf_bytes m' -> derive_public_key H k = Ok pub ->
  sign H (KeyPair (Some k) pub0) m = Ok sg ->
  let h := challenge H (sR sg) pub0 m in
  let a := ((le_val (sS sg) - scalar_in (fst (l_sign H (KeyPair (Some k) pub0) m))) * h ^ (q25519 - 2)) mod q25519 in
  let R := enc_point (zmul r Bpt) in
  let s := (r + challenge H R pub m' * a) mod q25519 in
  ~ (q25519 | h) -> low64 s <> 0 -> low64 s <> low64 q25519 ->
  verify H (KeyPair None pub) m' (Sig R (le_bytes 32 s)) = Ok true.
Proof. exact sign_trace_forges. Qed.
Example C60_nonvacuous_sign : hash_ok 64 H7 /\ exists k m pub sg, wf_bytes (pk_raw k) /\ wf_bytes m /\ wf_bytes pub /\
  sign H7 (KeyPair (Some k) pub) m = Ok sg /\ derive_public_key H7 k = Ok pub /\ ~ (q25519 | challenge H7 (sR sg) pub m).
Proof. exact (conj H7_ok ex_leak). Qed.

(** apart from cmov: deriving tells the length of the key and bit 255 of the public key, *)
Theorem C60_rest_of_derivation : forall H, hash_ok 64 H -> forall k1 k2 pub1 pub2,
  wf_bytes (pk_raw k1) -> wf_bytes (pk_raw k2) -> length (pk_raw k1) = length (pk_raw k2) ->
  derive_public_key H k1 = Ok pub1 -> derive_public_key H k2 = Ok pub2 ->
  Z.testbit (le_val pub1) 255 = Z.testbit (le_val pub2) 255 ->
  elsewhere (fst (l_derive H k1)) = elsewhere (fst (l_derive H k2)).
Proof. exact derive_elsewhere. Qed.
(** signing tells lengths and bit 255 of the signature's R, *)
Theorem C60_rest_of_signing : forall H, hash_ok 64 H -> forall k1 k2 pub1 pub2 m1 m2 sg1 sg2,
  wf_bytes (pk_raw k1) -> wf_bytes (pk_raw k2) -> wf_bytes pub1 -> wf_bytes pub2 -> wf_bytes m1 -> wf_bytes m2 ->
  length (pk_raw k1) = length (pk_raw k2) -> length pub1 = length pub2 -> length m1 = length m2 ->
  sign H (KeyPair (Some k1) pub1) m1 = Ok sg1 -> sign H (KeyPair (Some k2) pub2) m2 = Ok sg2 ->
  Z.testbit (le_val (sR sg1)) 255 = Z.testbit (le_val (sR sg2)) 255 ->
  elsewhere (fst (l_sign H (KeyPair (Some k1) pub1) m1)) = elsewhere (fst (l_sign H (KeyPair (Some k2) pub2) m2)).
Proof. exact sign_elsewhere. Qed.
(** and computing a shared key tells, of secrets, one bit of the shared point *)
Theorem C60_rest_of_shared_key : forall H, hash_ok 64 H -> forall G k1 k2 pub1 pub2 P1 P2 salt1 salt2,
  wf_bytes (pk_raw k1) -> wf_bytes (pk_raw k2) -> length (pk_raw k1) = length (pk_raw k2) ->
  wf_bytes pub1 -> length pub1 = 32%nat -> denotes pub1 P1 -> wf_bytes pub2 -> length pub2 = 32%nat -> denotes pub2 P2 ->
  length salt1 = 32%nat -> length salt2 = 32%nat ->
  elsewhere (fst (l_get_shared_key H G 32 (Some k1) pub1 salt1)) = elsewhere (fst (l_get_shared_key H G 32 (Some k2) pub2 salt2)) <->
  Z.testbit (le_val (enc_point (zmul (secret_scalar H (pk_raw k1)) P1))) 255 =
    Z.testbit (le_val (enc_point (zmul (secret_scalar H (pk_raw k2)) P2))) 255.
Proof. exact shared_elsewhere. Qed.

Print Assumptions C60_same_results.
Print Assumptions C60_select_tells_the_digit.
Print Assumptions C60_multiplication_tells_the_scalar.
Print Assumptions C60_branches_alike_iff_same_scalar.
Print Assumptions C60_nothing_else.
Print Assumptions C60_nonvacuous_multiply.
Print Assumptions C60_derivation_tells_the_private_scalar.
Print Assumptions C60_shared_key_tells_the_private_scalar.
Print Assumptions C60_signing_tells_the_nonce.
Print Assumptions C60_signing_tells_the_private_scalar.
Print Assumptions C60_signing_lets_forge.
Print Assumptions C60_nonvacuous_sign.
Print Assumptions C60_rest_of_derivation.
Print Assumptions C60_rest_of_signing.
Print Assumptions C60_rest_of_shared_key.
