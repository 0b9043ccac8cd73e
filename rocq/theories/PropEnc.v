(** Property C73: which strings are accepted as points (public keys), and which of them mean the same point.
    Statements; the proofs are in [PropEncLemmas].  [g_decode] is Decode of an encoded group element, the step with
    which Verify, Encrypt and Decrypt read public keys; [enc_point P] is the encoding of P (C22); [repc P3 g P] says
    that the element g represents P; the list [odd_encodings] is in [EncSpec]. *)
From Coq Require Import List ZArith.
From Verif Require Import GoBase FieldModel FieldSpec Fp Curve BasePoint GroupModel GroupSpec ApiModel ApiSpec EncSpec PropSecLemmas PropEncLemmas.
Import ListNotations.
Open Scope Z_scope.

(** 32 bytes are accepted exactly if they are the encoding of a point or one of the 26 listed strings, *)
Theorem C73_accepted : forall raw, wf_bytes raw -> length raw = 32%nat ->
  ((exists g, g_decode raw = Ok g) <-> (exists P, raw = enc_point P) \/ In (le_val raw) odd_encodings).
Proof. exact accepted_iff. Qed.
(** none of which is the encoding of a point. *)
Theorem C73_odd_not_canonical : forall raw P, wf_bytes raw -> length raw = 32%nat ->
  In (le_val raw) odd_encodings -> raw <> enc_point P.
Proof. exact odd_not_canonical. Qed.
Theorem C73_odd_number : NoDup odd_encodings /\ length odd_encodings = 26%nat.
Proof. exact odd_nodup. Qed.
(** So 8q + 26 strings are accepted. *)
Theorem C73_number_of_strings : exists l : list bytes, NoDup l /\
  (forall raw, In raw l <-> wf_bytes raw /\ length raw = 32%nat /\ exists g, g_decode raw = Ok g) /\
  Z.of_nat (length l) = 8 * q25519 + 26.
Proof. exact number_of_strings. Qed.
(** The strings that decode to a given point: its encoding, and besides y + p instead of y if y < 19, and the other
    sign bit if x = 0. *)
Theorem C73_strings_of_point : forall P raw, wf_bytes raw -> length raw = 32%nat ->
  ((exists g, g_decode raw = Ok g /\ repc P3 g P) <->
   raw = enc_point P \/
   (val (py P) < 19 /\ le_val raw = le_val (enc_point P) + p25519) \/
   (px P = F0 /\ le_val raw = le_val (enc_point P) + 2 ^ 255) \/
   (px P = F0 /\ val (py P) < 19 /\ le_val raw = le_val (enc_point P) + p25519 + 2 ^ 255)).
Proof. exact strings_of_point. Qed.
(** A derived public key is the only string for its point, unless its y is below 19: then there is one more. *)
Theorem C73_strings_of_derived_key : forall H k pub pub' P, hash_ok 64 H -> wf_bytes (pk_raw k) -> derive_public_key H k = Ok pub ->
  (exists g, g_decode pub = Ok g /\ repc P3 g P) -> wf_bytes pub' -> length pub' = 32%nat ->
  ((exists g, g_decode pub' = Ok g /\ repc P3 g P) <-> pub' = pub \/ (le_val pub mod 2 ^ 255 < 19 /\ le_val pub' = le_val pub + p25519)).
Proof. exact strings_of_derived. Qed.
(** a string that is accepted for a point with x not 0 and is not its encoding; a derived key *)
Example C73_nonvacuous : (exists P raw, wf_bytes raw /\ length raw = 32%nat /\ (exists g, g_decode raw = Ok g /\ repc P3 g P) /\
    raw <> enc_point P /\ px P <> F0 /\ le_val raw = le_val (enc_point P) + p25519) /\
  exists k pub P, wf_bytes (pk_raw k) /\ derive_public_key HX k = Ok pub /\ hash_ok 64 HX /\ exists g, g_decode pub = Ok g /\ repc P3 g P.
Proof. exact (conj ex_odd ex_derived_decodes). Qed.

Print Assumptions C73_accepted.
Print Assumptions C73_odd_not_canonical.
Print Assumptions C73_odd_number.
Print Assumptions C73_number_of_strings.
Print Assumptions C73_strings_of_point.
Print Assumptions C73_strings_of_derived_key.
