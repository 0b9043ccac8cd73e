(** Properties C37 - C40, C42, C43: encodings of keys and signatures, key generation.  Statements;
    the proofs are in [PropCodecLemmas].  Strings are lists of character codes. *)
From Coq Require Import List ZArith Lia Bool.
From Verif Require Import GoBase FieldModel FieldSpec Fp Curve BasePoint GroupModel GroupSpec
  ApiModel ApiSpec PropSigLemmas CodecSpec ExampleLemmas PropCodecLemmas.
Import ListNotations.
Open Scope Z_scope.

(** C37. *)
Theorem C37_private_roundtrip : forall raw, wf_bytes raw -> length raw = 32%nat ->
  new_private_key_from_hex (private_key_string (new_private_key raw)) = Ok (new_private_key raw) /\
  new_private_key_from_hex (to_upper (private_key_string (new_private_key raw))) = Ok (new_private_key raw).
Proof. exact private_hex_roundtrip. Qed.
Theorem C37_public_roundtrip : forall raw, wf_bytes raw -> length raw = 32%nat ->
  new_public_key_from_hex (public_key_string raw) = Ok raw /\ new_public_key_from_hex (public_key_hex raw) = Ok raw.
Proof. exact public_hex_roundtrip. Qed.
(** the texts themselves *)
Theorem C37_text : forall raw, wf_bytes raw ->
  private_key_string (new_private_key raw) = hex_text lower_digits raw /\
  public_key_hex raw = hex_text lower_digits raw /\ public_key_string raw = hex_text upper_digits raw.
Proof. exact key_text. Qed.
Theorem C37_signature_text : forall r s, wf_bytes r -> wf_bytes s ->
  signature_string (Sig r s) = hex_text lower_digits (r ++ s).
Proof. exact signature_text. Qed.
Example C37_text_example : hex_text lower_digits [0; 175; 18] = [48; 48; 97; 102; 49; 50] /\ hex_text upper_digits [175] = [65; 70].
Proof. exact ex_text. Qed.
(** every string: 64 (or 63) hex digits are accepted, and printed back in lower case; anything else
    is an error *)
Theorem C37_private_from_hex : forall s,
  (Forall is_hex s -> length (even_hex s) = 64%nat ->
     exists raw, new_private_key_from_hex s = Ok (new_private_key raw) /\ wf_bytes raw /\ length raw = 32%nat /\
       private_key_string (new_private_key raw) = to_lower (even_hex s)) /\
  (Forall is_hex s -> length (even_hex s) <> 64%nat -> new_private_key_from_hex s = Err ErrPrivateKeySize) /\
  (~ Forall is_hex s -> new_private_key_from_hex s = Err ErrHex).
Proof. exact private_from_hex. Qed.
Theorem C37_public_from_hex : forall s,
  (Forall is_hex s -> length (even_hex s) = 64%nat ->
     exists raw, new_public_key_from_hex s = Ok raw /\ wf_bytes raw /\ length raw = 32%nat /\
       public_key_hex raw = to_lower (even_hex s)) /\
  (Forall is_hex s -> length (even_hex s) <> 64%nat -> new_public_key_from_hex s = Err ErrPublicKeySize) /\
  (~ Forall is_hex s -> new_public_key_from_hex s = Err ErrHex).
Proof. exact public_from_hex. Qed.
Example C37_nonvacuous :
  Forall is_hex (repeat 65 63) /\ length (even_hex (repeat 65 63)) = 64%nat /\ ~ Forall is_hex [103].
Proof. exact ex_hex. Qed.

(** C38.  [strip]: without the leading zero bytes. *)
Theorem C38_exact : forall raw, wf_bytes raw ->
  pk_raw (new_private_key_from_bigint (pk_value (new_private_key raw))) = strip raw.
Proof. exact bigint_exact. Qed.
Theorem C38_iff : forall raw, wf_bytes raw ->
  (new_private_key_from_bigint (pk_value (new_private_key raw)) = new_private_key raw <-> hd 1 raw <> 0).
Proof. exact bigint_iff. Qed.
Theorem C38_shorter_key_example : exists raw, length raw = 32%nat /\ wf_bytes raw /\
  length (pk_raw (new_private_key_from_bigint (pk_value (new_private_key raw)))) = 31%nat.
Proof. exact ex_bigint. Qed.

Example C38_nonvacuous : wf_bytes (0 :: repeat 7 31) /\ hd 1 (0 :: repeat 7 31) = 0 /\ hd 1 (7 :: repeat 0 31) <> 0 /\
  strip (0 :: repeat 7 31) = repeat 7 31.
Proof. exact ex_strip. Qed.

(** C39. *)
Theorem C39_from_bytes : forall b, length b = 64%nat -> exists sg, new_signature_from_bytes b = Ok sg /\
  signature_bytes sg = b /\ sR sg = firstn 32 b /\ sS sg = skipn 32 b.
Proof. exact from_bytes_ok. Qed.
Theorem C39_from_bytes_error : forall b, length b <> 64%nat -> exists e, new_signature_from_bytes b = Err e.
Proof. exact from_bytes_err. Qed.
Theorem C39_new_signature : forall r s sg,
  new_signature r s = Ok sg <-> length r = 32%nat /\ length s = 32%nat /\ sg = Sig r s.
Proof. exact new_signature_iff. Qed.
Theorem C39_new_signature_error : forall r s, length r <> 32%nat \/ length s <> 32%nat ->
  new_signature r s = Err ErrNewSignature.
Proof. exact new_signature_err. Qed.
Theorem C39_roundtrip : forall r s sg, new_signature r s = Ok sg ->
  new_signature_from_bytes (signature_bytes sg) = Ok sg.
Proof. exact from_bytes_of_bytes. Qed.
Example C39_nonvacuous : new_signature (all_zero 32) (repeat 7 32) = Ok (Sig (all_zero 32) (repeat 7 32)).
Proof. reflexivity. Qed.

(** C40.  [None] is a nil pointer. *)
Theorem C40_success : forall r s, low64 (Z.abs r) <= 2 ^ 31 - 1 -> low64 (Z.abs s) <= 2 ^ 31 - 1 ->
  exists sg, new_signature_from_bigint (Some r) (Some s) = Ok sg /\
    get_R sg = Z.abs r mod 2 ^ 256 /\ get_S sg = Z.abs s mod 2 ^ 256.
Proof. exact from_bigint_ok. Qed.
Theorem C40_error : forall r s, (r = None \/ s = None \/ (exists v, r = Some v /\ 2 ^ 31 - 1 < low64 (Z.abs v)) \/
    (exists v, s = Some v /\ 2 ^ 31 - 1 < low64 (Z.abs v))) ->
  new_signature_from_bigint r s = Err ErrNewSignatureBigInt.
Proof. exact from_bigint_err. Qed.
Theorem C40_values_kept : forall r s, 0 <= r <= 2 ^ 31 - 1 -> 0 <= s <= 2 ^ 31 - 1 ->
  exists sg, new_signature_from_bigint (Some r) (Some s) = Ok sg /\ get_R sg = r /\ get_S sg = s.
Proof. exact from_bigint_small. Qed.
Theorem C40_values_altered_example :
  exists sg, new_signature_from_bigint (Some (-5)) (Some (2 ^ 256)) = Ok sg /\ get_R sg = 5 /\ get_S sg = 0.
Proof. exact from_bigint_altered. Qed.
Theorem C40_rebuild : forall sg, wf_bytes (sR sg) -> wf_bytes (sS sg) -> length (sR sg) = 32%nat -> length (sS sg) = 32%nat ->
  new_signature_from_bigint (Some (get_R sg)) (Some (get_S sg)) =
    if (low64 (le_val (sR sg)) <=? 2 ^ 31 - 1) && (low64 (le_val (sS sg)) <=? 2 ^ 31 - 1)
    then Ok sg else Err ErrNewSignatureBigInt.
Proof. exact from_bigint_rebuild. Qed.

Example C40_nonvacuous : low64 (Z.abs (2 ^ 64 + 5)) <= 2 ^ 31 - 1 /\ 2 ^ 31 - 1 < low64 (Z.abs (2 ^ 31)).
Proof. exact ex_bigint_cases. Qed.

(** C42.  The source delivers the bytes [src]; the result comes with the bytes left in it. *)
Theorem C42_generate : forall H, hash_ok 64 H -> forall src, wf_bytes src -> (32 <= length src)%nat ->
  exists kp, generate_key_pair H src = Ok (kp, skipn 32 src) /\
    kp_priv kp = Some (new_private_key (firstn 32 src)) /\
    kp_pub kp = public_key_of H (firstn 32 src) /\
    new_key_pair H (kp_priv kp) None = Ok kp.
Proof. exact generate_ok. Qed.
Theorem C42_short_source : forall H src, (length src < 32)%nat -> generate_key_pair H src = Err ErrEOF.
Proof. exact generate_eof. Qed.
Example C42_nonvacuous : hash_ok 64 H7 /\ wf_bytes (repeat 3 40) /\ (32 <= length (repeat 3 40))%nat.
Proof. exact ex_generate. Qed.

(** C43. *)
Theorem C43_derived : forall H, hash_ok 64 H -> forall k, wf_bytes (pk_raw k) ->
  new_key_pair H (Some k) None = Ok (KeyPair (Some k) (public_key_of H (pk_raw k))).
Proof. exact ApiProofs.new_key_pair_derived. Qed.
Theorem C43_given : forall H priv pub,
  new_key_pair H priv (Some pub) = if Nat.eqb (length pub) 32 then Ok (KeyPair priv pub) else Err ErrNotCompressed.
Proof. exact new_key_pair_given. Qed.
Theorem C43_nothing_given : forall H, new_key_pair H None None = Panic.
Proof. exact new_key_pair_none. Qed.
Theorem C43_mismatch_accepted_example : exists k pub, wf_bytes (pk_raw k) /\ length pub = 32%nat /\
  new_key_pair H7 (Some k) (Some pub) = Ok (KeyPair (Some k) pub) /\ pub <> public_key_of H7 (pk_raw k).
Proof. exact ex_mismatch. Qed.
Example C43_nonvacuous : hash_ok 64 H7 /\
  exists k pub m sg, wf_bytes (pk_raw k) /\ wf_bytes m /\ wf_bytes pub /\ sign H7 (KeyPair (Some k) pub) m = Ok sg.
Proof. exact (conj H7_ok ex_sign_pub). Qed.

(** signatures of a pair (k, pub) verify under pub exactly when pub decodes to a point A with
    [h]A = [h]A', A' the public point of k *)
Theorem C43_mismatch_verify : forall H, hash_ok 64 H -> forall k pub m sg,
  wf_bytes (pk_raw k) -> wf_bytes pub -> wf_bytes m -> length pub = 32%nat ->
  sign H (KeyPair (Some k) pub) m = Ok sg ->
  exists b, verify H (KeyPair (Some k) pub) m sg = Ok b /\
   (b = true <-> pub <> all_zero 32 /\ exists A, denotes pub A /\
      zmul (challenge H (sR sg) pub m) A = zmul (challenge H (sR sg) pub m) (public_point H (pk_raw k))).
Proof. exact mismatch_verify. Qed.

Print Assumptions C37_private_roundtrip.
Print Assumptions C37_public_roundtrip.
Print Assumptions C37_text.
Print Assumptions C37_signature_text.
Print Assumptions C37_private_from_hex.
Print Assumptions C37_public_from_hex.
Print Assumptions C38_exact.
Print Assumptions C38_iff.
Print Assumptions C38_shorter_key_example.
Print Assumptions C39_from_bytes.
Print Assumptions C39_from_bytes_error.
Print Assumptions C39_new_signature.
Print Assumptions C39_new_signature_error.
Print Assumptions C39_roundtrip.
Print Assumptions C40_success.
Print Assumptions C40_error.
Print Assumptions C40_values_kept.
Print Assumptions C40_values_altered_example.
Print Assumptions C40_rebuild.
Print Assumptions C42_generate.
Print Assumptions C42_short_source.
Print Assumptions C43_derived.
Print Assumptions C43_given.
Print Assumptions C43_nothing_given.
Print Assumptions C43_mismatch_accepted_example.
Print Assumptions C43_mismatch_verify.
