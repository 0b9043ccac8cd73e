(** Property C88: keys, signatures and encrypted messages are those of the standards.  Statements; the proofs are in
    [PropStdLemmas].  [StdSpec] describes, from SHA-3 (FIPS 202), AES-256 (FIPS 197), CBC, PKCS #7, the curve and its
    encoding alone, what somebody else's program computes; the operations are the library's with its own hash functions
    and block cipher. *)
From Coq Require Import List ZArith Bool Lia.
From Verif Require Import GoBase FieldSpec Fp Curve BasePoint GroupModel GroupSpec ScalarSpec ApiModel ApiSpec HashModel AesModel StdSpec PropStdLemmas.
Import ListNotations.
Open Scope Z_scope.

(** A private key's public key is the standards'. *)
Theorem C88_public_key : forall k pub, wf_bytes (pk_raw k) -> derive_public_key sha3_512 k = Ok pub <-> std_public (pk_raw k) pub.
Proof. exact std_public_iff. Qed.
(** Whatever Sign returns is the one signature that the standards accept for the private key, public key and message. *)
Theorem C88_sign : forall k pub m sg, wf_bytes (pk_raw k) -> wf_bytes pub -> wf_bytes m -> sign sha3_512 (KeyPair (Some k) pub) m = Ok sg ->
  forall x, std_signature (pk_raw k) pub m x <-> x = sR sg ++ sS sg.
Proof. exact std_sign. Qed.
(** Verify accepts everybody's signatures, but for those with S = 0 or S = q in the lowest 64 bits. *)
Theorem C88_accepted : forall private pub m sig, wf_bytes private -> wf_bytes m -> std_public private pub -> std_signature private pub m sig ->
  low64 (le_val (skipn 32 sig)) <> 0 -> low64 (le_val (skipn 32 sig)) <> low64 q25519 ->
  verify sha3_512 (KeyPair None pub) m (Sig (firstn 32 sig) (skipn 32 sig)) = Ok true.
Proof. exact std_accepted. Qed.
(** Exactly what Verify accepts, with the hash of FIPS 202. *)
Theorem C88_verify : forall kp m sg, wf_bytes (kp_pub kp) -> wf_bytes m -> wf_bytes (sR sg) -> wf_bytes (sS sg) ->
  length (kp_pub kp) = 32%nat -> length (sS sg) = 32%nat -> le_val (sS sg) <= 2 ^ 255 ->
  exists b, verify sha3_512 kp m sg = Ok b /\ (b = true <->
    (low64 (le_val (sS sg)) <> 0 /\ low64 (le_val (sS sg)) <> low64 q25519) /\
    kp_pub kp <> all_zero 32 /\
    exists A dh, denotes (kp_pub kp) A /\ is_SHA3_512 (sR sg ++ kp_pub kp ++ m) dh /\
      sR sg = enc_point (psub (zmul (le_val (sS sg)) Bpt) (zmul (le_val dh mod q25519) A))).
Proof. exact std_verify. Qed.
(** ... for every S and public keys of both lengths: [double_scalar] ([ScalarSpec]) is the number that the verifier makes
    of S, S itself up to 2^255 and S or S - 2^256 above (C28). *)
Theorem C88_verify_any : forall kp m sg, wf_bytes (kp_pub kp) -> wf_bytes m -> wf_bytes (sR sg) -> wf_bytes (sS sg) ->
  length (kp_pub kp) = 32%nat \/ length (kp_pub kp) = 64%nat -> (32 <= length (sS sg))%nat ->
  exists b, verify sha3_512 kp m sg = Ok b /\ (b = true <->
    (low64 (le_val (sS sg)) <> 0 /\ low64 (le_val (sS sg)) <> low64 q25519) /\
    kp_pub kp <> all_zero 32 /\
    exists A dh, denotes (firstn 32 (kp_pub kp)) A /\ is_SHA3_512 (sR sg ++ kp_pub kp ++ m) dh /\
      sR sg = enc_point (psub (zmul (double_scalar (le_val (firstn 32 (sS sg)))) Bpt) (zmul (le_val dh mod q25519) A))).
Proof. exact std_verify_any. Qed.
(** Encrypt writes the one message that the standards accept for the salt and iv taken from the source; to any public
    key that denotes a point. *)
Theorem C88_encrypt : forall k spub rpriv rpub P src m, wf_bytes (pk_raw k) -> wf_bytes rpub -> length rpub = 32%nat -> denotes rpub P ->
  wf_bytes src -> (48 <= length src)%nat -> wf_bytes m ->
  exists out, encrypt sha3_512 sha3_256 aes_encrypt (new_block_cipher (KeyPair (Some k) spub) (KeyPair rpriv rpub)) src m = Ok (out, skipn 48 src) /\
    forall x, std_message (pk_raw k) rpub (firstn 32 src) (firstn 16 (skipn 32 src)) m x <-> x = out.
Proof. exact std_encrypt. Qed.
(** Decrypt returns exactly the messages whose encryption by the standards is the input, salt and iv being those at the
    front of the input. *)
Theorem C88_decrypt : forall k rpub spriv spub P input m, wf_bytes (pk_raw k) -> length rpub = 32%nat -> wf_bytes spub -> length spub = 32%nat ->
  denotes spub P -> wf_bytes input -> (64 <= length input)%nat -> (length input mod 16 = 0)%nat -> wf_bytes m ->
  decrypt sha3_512 sha3_256 aes_decrypt (new_block_cipher (KeyPair spriv spub) (KeyPair (Some k) rpub)) input = Ok m <->
  std_message (pk_raw k) spub (firstn 32 input) (firstn 16 (skipn 32 input)) m input.
Proof. exact std_decrypt. Qed.
(** Both ways: a message made by anybody with the private key [a] opens at the library's recipient, ... *)
Theorem C88_received : forall a puba k spriv rpub salt iv m out, wf_bytes a -> std_public a puba -> wf_bytes (pk_raw k) -> std_public (pk_raw k) rpub ->
  wf_bytes salt -> length salt = 32%nat -> wf_bytes iv -> length iv = 16%nat -> wf_bytes m ->
  std_message a rpub salt iv m out ->
  decrypt sha3_512 sha3_256 aes_decrypt (new_block_cipher (KeyPair spriv puba) (KeyPair (Some k) rpub)) out = Ok m.
Proof. exact std_received. Qed.
(** ... and the library's message is, for anybody who holds the recipient's private key [b], a message from the sender's
    public key. *)
Theorem C88_sent : forall k spub rpriv b rpub src m, wf_bytes (pk_raw k) -> std_public (pk_raw k) spub -> wf_bytes b -> std_public b rpub ->
  wf_bytes src -> (48 <= length src)%nat -> wf_bytes m ->
  exists out, encrypt sha3_512 sha3_256 aes_encrypt (new_block_cipher (KeyPair (Some k) spub) (KeyPair rpriv rpub)) src m = Ok (out, skipn 48 src) /\
    forall x, std_message b spub (firstn 32 src) (firstn 16 (skipn 32 src)) m x <-> x = out.
Proof. exact std_sent. Qed.
Example C88_nonvacuous : forall a b src m, wf_bytes a -> wf_bytes b -> wf_bytes src -> (48 <= length src)%nat -> wf_bytes m ->
  exists puba pubb sig out, std_public a puba /\ std_public b pubb /\ (exists P, denotes pubb P) /\
    std_signature a puba m sig /\ std_message a pubb (firstn 32 src) (firstn 16 (skipn 32 src)) m out.
Proof. exact std_exist. Qed.
Example C88_nonvacuous_bytes : wf_bytes [1; 2; 255] /\ (wf_bytes (repeat 9 48) /\ (48 <= length (repeat 9 48))%nat).
Proof. exact ex_std_bytes. Qed.

Print Assumptions C88_public_key.
Print Assumptions C88_sign.
Print Assumptions C88_accepted.
Print Assumptions C88_verify.
Print Assumptions C88_verify_any.
Print Assumptions C88_encrypt.
Print Assumptions C88_decrypt.
Print Assumptions C88_received.
Print Assumptions C88_sent.
