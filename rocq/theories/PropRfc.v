(** Properties C68, C69: Verify compared with RFC 8032, and what an accepted signature binds.  Statements; the
    proofs are in [PropRfcLemmas].  [rfc_verify] (the cofactored equation) and [rfc_verify_sufficient] (the equation
    without cofactor) are in [RfcSpec]; [H] is SHA3-512 in the place of SHA-512. *)
From Coq Require Import List ZArith.
From Verif Require Import GoBase FieldModel FieldSpec Fp Curve BasePoint GroupModel GroupSpec
  ApiModel ApiSpec PropSigLemmas PropSecLemmas RfcSpec PropRfcLemmas.
Import ListNotations.
Open Scope Z_scope.

(** C68.  What Sign returns is valid by both equations of the RFC. *)
Theorem C68_signatures_valid : forall H, hash_ok 64 H -> forall k m kp sg,
  wf_bytes (pk_raw k) -> wf_bytes m -> new_key_pair H (Some k) None = Ok kp -> sign H kp m = Ok sg ->
  rfc_verify H (kp_pub kp) m (sR sg) (sS sg) /\ rfc_verify_sufficient H (kp_pub kp) m (sR sg) (sS sg).
Proof.
  exact (fun H HH k m kp sg Wk Wm E Es => conj (rfc_sufficient H _ _ _ _ (sign_rfc H HH k m kp sg Wk Wm E Es)) (sign_rfc H HH k m kp sg Wk Wm E Es)).
Qed.
(** For a key that RFC 8032 decodes and S below q, Verify accepts only what the RFC accepts. *)
Theorem C68_sound : forall H, hash_ok 64 H -> forall pub m R s PA,
  wf_bytes m -> wf_bytes R -> wf_bytes s -> length s = 32%nat -> le_val s < q25519 -> rfc_decodes pub PA ->
  verify H (KeyPair None pub) m (Sig R s) = Ok true -> rfc_verify H pub m R s.
Proof. exact verify_rfc. Qed.
(** Of what the RFC accepts, Verify accepts what satisfies the equation without an error T of small order. *)
Theorem C68_error_point : forall H, hash_ok 64 H -> forall pub m R s,
  wf_bytes m -> rfc_verify H pub m R s ->
  pub <> all_zero 32 -> low64 (le_val s) <> 0 -> low64 (le_val s) <> low64 q25519 ->
  exists b PA PR T, rfc_decodes pub PA /\ rfc_decodes R PR /\ zmul 8 T = pzero /\
    PR = padd (psub (zmul (le_val s) Bpt) (zmul (le_val (H [R; pub; m]) mod q25519) PA)) T /\
    verify H (KeyPair None pub) m (Sig R s) = Ok b /\ (b = true <-> T = pzero).
Proof. exact rfc_verify_error. Qed.
(** For derived keys that is the RFC's equation without cofactor. *)
Theorem C68_derived_keys : forall H, hash_ok 64 H -> forall k pub m R s,
  wf_bytes (pk_raw k) -> wf_bytes m -> wf_bytes R -> wf_bytes s -> length s = 32%nat ->
  derive_public_key H k = Ok pub -> le_val s < q25519 -> low64 (le_val s) <> 0 -> low64 (le_val s) <> low64 q25519 ->
  (verify H (KeyPair None pub) m (Sig R s) = Ok true <-> rfc_verify_sufficient H pub m R s).
Proof. exact verify_sufficient_iff. Qed.
(** The owner of any key can make signatures that the RFC's cofactored verification accepts and Verify rejects. *)
Theorem C68_disagreement : forall H, hash_ok 64 H -> forall k pub m r T,
  wf_bytes (pk_raw k) -> wf_bytes m -> derive_public_key H k = Ok pub -> T <> pzero -> zmul 8 T = pzero ->
  let R := enc_point (padd (zmul r Bpt) T) in
  let s := le_bytes 32 ((r + le_val (H [R; pub; m]) * secret_scalar H (pk_raw k)) mod q25519) in
  rfc_verify H pub m R s /\ verify H (KeyPair None pub) m (Sig R s) = Ok false.
Proof. exact rfc_accepts_verify_rejects. Qed.
(** For keys that are not derived the reduction of the hash modulo q makes a difference. *)
Theorem C68_mixed_order_keys : exists H pub m R s, hash_ok 64 H /\ wf_bytes m /\
  verify H (KeyPair None pub) m (Sig R s) = Ok true /\ rfc_verify H pub m R s /\ ~ rfc_verify_sufficient H pub m R s.
Proof. exact reduced_challenge. Qed.
(** Keys: one that the RFC does not decode and Verify accepts signatures with; the all-zero key, which the RFC decodes. *)
Theorem C68_noncanonical_key : forall H, hash_ok 64 H -> forall m, wf_bytes m ->
  (forall P, ~ rfc_decodes (le_bytes 32 (2 ^ 255 - 18)) P) /\
  exists R s, length R = 32%nat /\ length s = 32%nat /\ verify H (KeyPair None (le_bytes 32 (2 ^ 255 - 18))) m (Sig R s) = Ok true.
Proof. exact noncanonical_accepted. Qed.
Theorem C68_zero_key : forall H m, wf_bytes m -> exists R s, rfc_verify H (all_zero 32) m R s /\
  low64 (le_val s) <> 0 /\ low64 (le_val s) <> low64 q25519 /\ verify H (KeyPair None (all_zero 32)) m (Sig R s) = Ok false.
Proof. exact zero_key_rejected. Qed.
Example C68_nonvacuous : hash_ok 64 H7 /\ exists k m kp sg,
  wf_bytes (pk_raw k) /\ wf_bytes m /\ new_key_pair H7 (Some k) None = Ok kp /\ sign H7 kp m = Ok sg /\
  derive_public_key H7 k = Ok (kp_pub kp) /\ wf_bytes (sR sg) /\ wf_bytes (sS sg) /\ length (sS sg) = 32%nat /\ le_val (sS sg) < q25519 /\
  (exists PA, rfc_decodes (kp_pub kp) PA) /\ verify H7 (KeyPair None (kp_pub kp)) m (Sig (sR sg) (sS sg)) = Ok true.
Proof. exact (conj H7_ok ex_rfc). Qed.
Example C68_nonvacuous_error : hash_ok 64 HX /\ exists k pub T, wf_bytes (pk_raw k) /\ derive_public_key HX k = Ok pub /\ T <> pzero /\ zmul 8 T = pzero.
Proof. exact (conj HX_ok ex_error). Qed.

(** C69.  A signature accepted for one message is accepted for another exactly when the two hashes agree modulo q ... *)
Theorem C69_other_message : forall H, hash_ok 64 H -> forall k pub m1 m2 R s,
  wf_bytes (pk_raw k) -> wf_bytes m1 -> wf_bytes m2 -> wf_bytes R -> wf_bytes s ->
  length s = 32%nat -> le_val s <= 2 ^ 255 -> derive_public_key H k = Ok pub ->
  verify H (KeyPair None pub) m1 (Sig R s) = Ok true ->
  (verify H (KeyPair None pub) m2 (Sig R s) = Ok true <->
   (q25519 | le_val (H [R; pub; m1]) - le_val (H [R; pub; m2]))).
Proof. exact other_message. Qed.
(** ... and under another derived key exactly when the hashes times the secret scalars do. *)
Theorem C69_other_key : forall H, hash_ok 64 H -> forall k1 k2 pub1 pub2 m1 m2 R s,
  wf_bytes (pk_raw k1) -> wf_bytes (pk_raw k2) -> wf_bytes m1 -> wf_bytes m2 -> wf_bytes R -> wf_bytes s ->
  length s = 32%nat -> le_val s <= 2 ^ 255 ->
  derive_public_key H k1 = Ok pub1 -> derive_public_key H k2 = Ok pub2 ->
  verify H (KeyPair None pub1) m1 (Sig R s) = Ok true ->
  (verify H (KeyPair None pub2) m2 (Sig R s) = Ok true <->
   (q25519 | challenge H R pub1 m1 * secret_scalar H (pk_raw k1) - challenge H R pub2 m2 * secret_scalar H (pk_raw k2))).
Proof. exact accepted_twice. Qed.
Example C69_nonvacuous : exists k pub m1 m2 R s1 s2,
  wf_bytes (pk_raw k) /\ wf_bytes m1 /\ wf_bytes m2 /\ wf_bytes R /\ wf_bytes s1 /\ wf_bytes s2 /\
  length s1 = 32%nat /\ length s2 = 32%nat /\ le_val s1 <= 2 ^ 255 /\ le_val s2 <= 2 ^ 255 /\
  derive_public_key HX k = Ok pub /\
  verify HX (KeyPair None pub) m1 (Sig R s1) = Ok true /\ verify HX (KeyPair None pub) m2 (Sig R s2) = Ok true /\
  ~ (q25519 | challenge HX R pub m1 - challenge HX R pub m2).
Proof. exact ex_same_R. Qed.

Print Assumptions C68_signatures_valid.
Print Assumptions C68_sound.
Print Assumptions C68_error_point.
Print Assumptions C68_derived_keys.
Print Assumptions C68_disagreement.
Print Assumptions C68_mixed_order_keys.
Print Assumptions C68_noncanonical_key.
Print Assumptions C68_zero_key.
Print Assumptions C69_other_message.
Print Assumptions C69_other_key.
