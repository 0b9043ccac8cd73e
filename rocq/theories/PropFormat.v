(** Property C66: the bytes of a ciphertext, and what Decrypt makes of every input.  Statements; the
    vocabulary (CBC, PKCS #7, the agreed key) is in [CipherSpec], the proofs are in [PropFormatLemmas].
    [H], [G], [E], [D]: any hash functions with 64 and 32 bytes of output and any block cipher. *)
From Coq Require Import List ZArith Bool.
From Verif Require Import GoBase FieldSpec Fp Curve BasePoint GroupModel GroupSpec ApiModel ApiSpec CipherSpec
  PropSigLemmas PropCipherLemmas PropFormatLemmas.
Import ListNotations.
Open Scope Z_scope.

(** Encrypt to any recipient's public key that decodes to a point: salt and iv from the source, then
    CBC of the padded message under the agreed key. *)
Theorem C66_encrypt : forall H, hash_ok 64 H -> forall G, hash1_ok 32 G -> forall E D, cipher_ok E D ->
  forall k spub rpriv rpub P src m, wf_bytes (pk_raw k) -> wf_bytes rpub -> length rpub = 32%nat -> denotes rpub P ->
  wf_bytes src -> (48 <= length src)%nat -> wf_bytes m ->
  exists p c, pkcs7 m p /\ cbc E (agreed_key H G (pk_raw k) P (firstn 32 src)) (firstn 16 (skipn 32 src)) p c /\
    encrypt H G E (new_block_cipher (KeyPair (Some k) spub) (KeyPair rpriv rpub)) src m = Ok (firstn 48 src ++ c, skipn 48 src).
Proof. exact encrypt_bytes. Qed.
(** the description leaves no choice *)
Theorem C66_one_ciphertext : forall E key iv m p p' c c', length iv = 16%nat ->
  pkcs7 m p -> pkcs7 m p' -> cbc E key iv p c -> cbc E key iv p' c' -> p = p' /\ c = c'.
Proof. exact one_ciphertext. Qed.
(** the other cases of Encrypt with a private key: errors *)
Theorem C66_encrypt_errors : forall H, hash_ok 64 H -> forall G E skp rpriv rpub src m, wf_bytes rpub ->
  ((length src < length rpub)%nat -> encrypt H G E (new_block_cipher skp (KeyPair rpriv rpub)) src m = Err ErrEOF) /\
  ((length rpub <= length src)%nat -> length rpub <> 32%nat ->
     encrypt H G E (new_block_cipher skp (KeyPair rpriv rpub)) src m = Err ErrEncodedGroup) /\
  ((32 <= length src)%nat -> length rpub = 32%nat -> (forall P, ~ denotes rpub P) ->
     encrypt H G E (new_block_cipher skp (KeyPair rpriv rpub)) src m = Err ErrNotOnCurve) /\
  (forall k P, kp_priv skp = Some k -> wf_bytes (pk_raw k) -> (32 <= length src < 48)%nat -> length rpub = 32%nat -> denotes rpub P ->
     encrypt H G E (new_block_cipher skp (KeyPair rpriv rpub)) src m = Err ErrEOF).
Proof. exact encrypt_errors. Qed.

(** Decrypt of whole blocks: with [p] the CBC decryption under the agreed key, exactly the message of
    which [p] is the padding; if there is none, the error tells whether the last byte is between 1 and 16. *)
Theorem C66_decrypt : forall H, hash_ok 64 H -> forall G, hash1_ok 32 G -> forall E D, cipher_ok E D ->
  forall k rpub spriv spub P input, wf_bytes (pk_raw k) -> length rpub = 32%nat -> wf_bytes spub -> length spub = 32%nat ->
  denotes spub P -> wf_bytes input -> (64 <= length input)%nat -> (length input mod 16 = 0)%nat ->
  let result := decrypt H G D (new_block_cipher (KeyPair spriv spub) (KeyPair (Some k) rpub)) input in
  exists p, cbc_back D (agreed_key H G (pk_raw k) P (firstn 32 input)) (firstn 16 (skipn 32 input)) (skipn 48 input) p /\
    (forall m, result = Ok m <-> pkcs7 m p) /\
    ((forall m, ~ pkcs7 m p) -> result = Err (if (1 <=? last p 0) && (last p 0 <=? 16) then ErrPaddingByte else ErrPaddingSize)).
Proof. exact decrypt_bytes. Qed.
Theorem C66_one_plaintext : forall D key iv c p p' m m', (length c mod 16 = 0)%nat ->
  cbc_back D key iv c p -> cbc_back D key iv c p' -> pkcs7 m p -> pkcs7 m' p' -> p = p' /\ m = m'.
Proof. exact one_plaintext. Qed.
Theorem C66_decrypt_errors : forall H G D skp rkp input, wf_bytes (kp_pub skp) -> length (kp_pub rkp) = 32%nat -> (64 <= length input)%nat ->
  (length (kp_pub skp) <> 32%nat -> decrypt H G D (new_block_cipher skp rkp) input = Err ErrEncodedGroup) /\
  (length (kp_pub skp) = 32%nat -> (forall P, ~ denotes (kp_pub skp) P) ->
     decrypt H G D (new_block_cipher skp rkp) input = Err ErrNotOnCurve).
Proof. exact decrypt_errors. Qed.
(** a recipient whose public key does not have 32 bytes reads nothing *)
Theorem C66_odd_recipient : forall H G D skp rkp input, length (kp_pub rkp) <> 32%nat ->
  forall m, decrypt H G D (new_block_cipher skp rkp) input <> Ok m.
Proof. exact odd_recipient. Qed.

Example C66_nonvacuous : hash_ok 64 H7 /\ hash1_ok 32 G7 /\ cipher_ok Ex Ex /\
  exists k rpub P src m, wf_bytes (pk_raw k) /\ wf_bytes rpub /\ length rpub = 32%nat /\ denotes rpub P /\
    wf_bytes src /\ (48 <= length src)%nat /\ wf_bytes m /\ (16 < length m)%nat.
Proof. exact ex_format. Qed.
Example C66_padding_example : pkcs7 (repeat 7 20) (repeat 7 20 ++ repeat 12 12) /\ pkcs7 [] (repeat 16 16) /\ forall m, ~ pkcs7 m (repeat 0 16).
Proof. exact ex_pkcs7. Qed.

Print Assumptions C66_encrypt.
Print Assumptions C66_one_ciphertext.
Print Assumptions C66_encrypt_errors.
Print Assumptions C66_decrypt.
Print Assumptions C66_one_plaintext.
Print Assumptions C66_decrypt_errors.
Print Assumptions C66_odd_recipient.
