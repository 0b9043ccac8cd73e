(** Properties C31 - C36: key agreement and the block cipher.  Statements; the proofs are in
    [CipherProofs] and [PropCipherLemmas].  They hold for every 64-byte-output hash [H] (SHA3-512),
    32-byte-output hash [G] (SHA3-256) and 16-byte block cipher [E], [D] with 32-byte keys (AES-256).
    [src] is the sequence of bytes the random source will deliver. *)
From Coq Require Import List ZArith Lia Bool.
From Verif Require Import GoBase FieldModel FieldSpec Fp Curve BasePoint GroupModel GroupSpec
  ApiModel ApiSpec PropSigLemmas CipherProofs PropCipherLemmas ExampleLemmas.
Import ListNotations.
Open Scope Z_scope.

(** C31. *)
Theorem C31_symmetric : forall H, hash_ok 64 H -> forall G, hash1_ok 32 G ->
  forall k1 k2 kp1 kp2 salt, wf_bytes (pk_raw k1) -> wf_bytes (pk_raw k2) -> wf_bytes salt -> length salt = 32%nat ->
  new_key_pair H (Some k1) None = Ok kp1 -> new_key_pair H (Some k2) None = Ok kp2 ->
  exists key, length key = 32%nat /\ wf_bytes key /\
    get_shared_key H G 32 (Some k1) (kp_pub kp2) salt = Ok key /\
    get_shared_key H G 32 (Some k2) (kp_pub kp1) salt = Ok key.
Proof. exact agreement. Qed.
(** the shared key of a private key and any public key bytes: exact value or error, never a panic *)
Theorem C31_value : forall H, hash_ok 64 H -> forall G n k pub salt,
  wf_bytes (pk_raw k) -> wf_bytes pub -> length salt = 32%nat -> n = 32%nat ->
  (length pub <> 32%nat /\ get_shared_key H G n (Some k) pub salt = Err ErrEncodedGroup) \/
  (length pub = 32%nat /\ (forall P, ~ denotes pub P) /\ get_shared_key H G n (Some k) pub salt = Err ErrNotOnCurve) \/
  (exists P, length pub = 32%nat /\ denotes pub P /\ get_shared_key H G n (Some k) pub salt =
     Ok (G (xor_bytes (enc_point (zmul (secret_scalar H (pk_raw k)) P)) salt))).
Proof. exact shared_key_cases. Qed.
Example C31_nonvacuous : hash_ok 64 H7 /\ hash1_ok 32 G7 /\
  exists k1 k2 kp1 kp2, wf_bytes (pk_raw k1) /\ wf_bytes (pk_raw k2) /\ k1 <> k2 /\
  new_key_pair H7 (Some k1) None = Ok kp1 /\ new_key_pair H7 (Some k2) None = Ok kp2.
Proof. exact (conj H7_ok (conj G7_ok ex_pairs)). Qed.

(** C32. *)
Theorem C32_decrypt_encrypt : forall H, hash_ok 64 H -> forall G, hash1_ok 32 G -> forall E D, cipher_ok E D ->
  forall k1 k2 kp1 kp2 src m, wf_bytes (pk_raw k1) -> wf_bytes (pk_raw k2) -> wf_bytes src -> wf_bytes m ->
  new_key_pair H (Some k1) None = Ok kp1 -> new_key_pair H (Some k2) None = Ok kp2 -> (48 <= length src)%nat ->
  exists out rest, encrypt H G E (new_block_cipher kp1 kp2) src m = Ok (out, rest) /\
    decrypt H G D (new_block_cipher kp1 kp2) out = Ok m.
Proof. exact roundtrip. Qed.
(** the sender can decrypt too, by swapping the two pairs *)
Theorem C32_sender_decrypts : forall H, hash_ok 64 H -> forall G, hash1_ok 32 G -> forall E D, cipher_ok E D ->
  forall k1 k2 kp1 kp2 src m out rest, wf_bytes (pk_raw k1) -> wf_bytes (pk_raw k2) -> wf_bytes src -> wf_bytes m ->
  new_key_pair H (Some k1) None = Ok kp1 -> new_key_pair H (Some k2) None = Ok kp2 ->
  encrypt H G E (new_block_cipher kp1 kp2) src m = Ok (out, rest) ->
  decrypt H G D (new_block_cipher kp2 kp1) out = Ok m.
Proof. exact sender_reads. Qed.
Example C32_nonvacuous : cipher_ok Ex Ex. Proof. exact Ex_ok. Qed.

(** C33.  The first 48 bytes of the random source, then whole blocks; the rest of the source is left. *)
Theorem C33_layout : forall H, hash_ok 64 H -> forall G, hash1_ok 32 G -> forall E D, cipher_ok E D ->
  forall k1 k2 kp1 kp2 src m, wf_bytes (pk_raw k1) -> wf_bytes (pk_raw k2) -> wf_bytes src -> wf_bytes m ->
  new_key_pair H (Some k1) None = Ok kp1 -> new_key_pair H (Some k2) None = Ok kp2 -> (48 <= length src)%nat ->
  exists c, encrypt H G E (new_block_cipher kp1 kp2) src m = Ok (firstn 48 src ++ c, skipn 48 src) /\
    length c = (16 * (length m / 16 + 1))%nat /\ wf_bytes c.
Proof. exact derived_encrypt. Qed.
Theorem C33_short_source : forall H, hash_ok 64 H -> forall G E k1 k2 kp1 kp2 src m,
  wf_bytes (pk_raw k1) -> wf_bytes (pk_raw k2) ->
  new_key_pair H (Some k1) None = Ok kp1 -> new_key_pair H (Some k2) None = Ok kp2 -> (length src < 48)%nat ->
  encrypt H G E (new_block_cipher kp1 kp2) src m = Err ErrEOF.
Proof. exact encrypt_eof. Qed.

Example C33_nonvacuous : hash_ok 64 H7 /\ hash1_ok 32 G7 /\ cipher_ok Ex Ex /\ exists k1 k2 kp1 kp2 src m out rest,
  wf_bytes (pk_raw k1) /\ wf_bytes (pk_raw k2) /\ wf_bytes src /\ wf_bytes m /\ (48 <= length src)%nat /\ (0 < length m)%nat /\
  new_key_pair H7 (Some k1) None = Ok kp1 /\ new_key_pair H7 (Some k2) None = Ok kp2 /\
  encrypt H7 G7 Ex (new_block_cipher kp1 kp2) src m = Ok (out, rest) /\ decrypt H7 G7 Ex (new_block_cipher kp1 kp2) out = Ok m.
Proof. exact ex_encrypts. Qed.

(** C34.  [rpub] is the recipient's public key, [kr] its private key, [s] the sender. *)
Theorem C34_no_panic : forall H, hash_ok 64 H -> forall G, hash1_ok 32 G -> forall E D, cipher_ok E D ->
  forall kr rpub s, wf_bytes (pk_raw kr) -> length rpub = 32%nat -> wf_bytes (kp_pub s) ->
  forall input, wf_bytes input -> (length input < 64)%nat \/ (length input mod 16 = 0)%nat ->
  decrypt H G D (new_block_cipher s (KeyPair (Some kr) rpub)) input <> Panic.
Proof. exact decrypt_no_panic. Qed.
Theorem C34_panics : forall H, hash_ok 64 H -> forall G, hash1_ok 32 G -> forall D,
  forall kr rpub s, wf_bytes (pk_raw kr) -> length rpub = 32%nat -> wf_bytes (kp_pub s) ->
  forall input, wf_bytes input -> (64 <= length input)%nat -> (length input mod 16 <> 0)%nat ->
  length (kp_pub s) = 32%nat -> (exists P, denotes (kp_pub s) P) ->
  decrypt H G D (new_block_cipher s (KeyPair (Some kr) rpub)) input = Panic.
Proof. exact decrypt_panics. Qed.
Theorem C34_short_input : forall H G D bc input, (length input < 64)%nat -> decrypt H G D bc input = Err ErrTooShort.
Proof. exact decrypt_short. Qed.

Example C34_nonvacuous : exists kr (rpub : bytes) s input, wf_bytes (pk_raw kr) /\ length rpub = 32%nat /\ wf_bytes (kp_pub s) /\
  wf_bytes input /\ (64 <= length input)%nat /\ (length input mod 16 <> 0)%nat /\ length (kp_pub s) = 32%nat /\
  exists P, denotes (kp_pub s) P.
Proof. exact ex_malformed. Qed.

(** C35.  Decrypt returns m exactly for the one ciphertext that Encrypt gives for m with the same
    salt and iv (the first 48 bytes). *)
Theorem C35_exact : forall H, hash_ok 64 H -> forall G, hash1_ok 32 G -> forall E D, cipher_ok E D ->
  forall k1 k2 kp1 kp2 input m, wf_bytes (pk_raw k1) -> wf_bytes (pk_raw k2) -> wf_bytes input -> wf_bytes m ->
  new_key_pair H (Some k1) None = Ok kp1 -> new_key_pair H (Some k2) None = Ok kp2 ->
  (length input mod 16 = 0)%nat ->
  (decrypt H G D (new_block_cipher kp1 kp2) input = Ok m <->
   encrypt H G E (new_block_cipher kp1 kp2) (firstn 48 input) m = Ok (input, [])).
Proof. exact decrypt_iff. Qed.
(** the padding alone *)
Theorem C35_unpad_pad : forall m, unpad (pad m) = Ok m.
Proof. exact unpad_pad. Qed.
Theorem C35_unpad_sound : forall buf m, wf_bytes buf -> (length buf mod 16 = 0)%nat -> unpad buf = Ok m -> buf = pad m.
Proof. exact unpad_sound. Qed.

(** a case where both sides of [C35_exact] hold is [C33_nonvacuous]; a padding that is rejected: *)
Example C35_nonvacuous : unpad (repeat 3 13 ++ [2; 3; 3]) = Err ErrPaddingByte /\ unpad (repeat 9 13 ++ [3; 3; 3]) = Ok (repeat 9 13).
Proof. exact (conj eq_refl eq_refl). Qed.

(** C36.  No message without the private key; a panic as soon as the other key decodes. *)
Theorem C36_encrypt : forall H G E spub r src m, wf_bytes (kp_pub r) ->
  (forall out, encrypt H G E (new_block_cipher (KeyPair None spub) r) src m <> Ok out) /\
  (length (kp_pub r) = 32%nat -> (32 <= length src)%nat -> (exists P, denotes (kp_pub r) P) ->
   encrypt H G E (new_block_cipher (KeyPair None spub) r) src m = Panic).
Proof. exact encrypt_no_private. Qed.
Theorem C36_decrypt : forall H G D s rpub input, wf_bytes (kp_pub s) ->
  (forall m, decrypt H G D (new_block_cipher s (KeyPair None rpub)) input <> Ok m) /\
  (length rpub = 32%nat -> length (kp_pub s) = 32%nat -> (64 <= length input)%nat -> (exists P, denotes (kp_pub s) P) ->
   decrypt H G D (new_block_cipher s (KeyPair None rpub)) input = Panic).
Proof. exact decrypt_no_private. Qed.
(** non-vacuity of the decoding hypotheses: every derived key decodes *)
Example C36_nonvacuous : forall H key, length (public_key_of H key) = 32%nat /\ exists P, denotes (public_key_of H key) P.
Proof. exact derived_decodes. Qed.

Print Assumptions C31_symmetric.
Print Assumptions C31_value.
Print Assumptions C32_decrypt_encrypt.
Print Assumptions C32_sender_decrypts.
Print Assumptions C33_layout.
Print Assumptions C33_short_source.
Print Assumptions C34_no_panic.
Print Assumptions C34_panics.
Print Assumptions C34_short_input.
Print Assumptions C35_exact.
Print Assumptions C35_unpad_pad.
Print Assumptions C35_unpad_sound.
Print Assumptions C36_encrypt.
Print Assumptions C36_decrypt.
