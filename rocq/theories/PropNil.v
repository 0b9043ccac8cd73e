(** Property C70: exactly when calls of the API panic, with every pointer possibly nil.  Statements; the proofs are
    in [PropNilLemmas].  The calls are those of [NilModel]: a key pair is a possibly nil pointer to a pair of possibly
    nil pointers, a signature a possibly nil pointer.  [H], [G] are SHA3-512 and SHA3-256, [E], [D] AES-256 (any
    functions of those shapes); the byte hypotheses say that contents of slices are bytes. *)
From Coq Require Import List ZArith.
From Verif Require Import GoBase FieldModel FieldSpec Fp Curve BasePoint GroupModel GroupSpec
  ApiModel ApiSpec PropSigLemmas NilModel PropNilLemmas.
Import ListNotations.
Open Scope Z_scope.

(** Sign panics for a nil key pair and for one with a private and no public key. *)
Theorem C70_sign : forall H, hash_ok 64 H -> forall kp m, wf_bytes m ->
  (forall p, kp = Some p -> (forall k, gk_priv p = Some k -> wf_bytes (pk_raw k)) /\ (forall b, gk_pub p = Some b -> wf_bytes b)) ->
  (n_sign H kp m = Panic <-> kp = None \/ exists k, kp = Some (GoKP (Some k) None)).
Proof. exact n_sign_panic. Qed.
(** Verify panics for a nil signature.  For one that passes the canonicity test it panics if a key is missing, or if S
    is shorter than 32 bytes and the public key decodes.  Otherwise it does not, so a signature failing the test is
    rejected even without any key. *)
Theorem C70_verify : forall H, hash_ok 64 H -> forall kp m sg, wf_bytes m ->
  (forall p b, kp = Some p -> gk_pub p = Some b -> wf_bytes b) -> (forall s, sg = Some s -> wf_bytes (sR s) /\ wf_bytes (sS s)) ->
  (n_verify H kp m sg = Panic <->
   sg = None \/
   exists s, sg = Some s /\ low64 (le_val (sS s)) <> 0 /\ low64 (le_val (sS s)) <> low64 q25519 /\
     (kp = None \/ exists p, kp = Some p /\ (gk_pub p = None \/
        exists pub, gk_pub p = Some pub /\ (length (sS s) < 32)%nat /\ pub <> all_zero 32 /\
          (length pub = 32%nat \/ length pub = 64%nat) /\ exists A, denotes pub A))).
Proof. exact n_verify_panic. Qed.
(** NewKeyPair panics without any key; key generation never. *)
Theorem C70_new_key_pair : forall H, hash_ok 64 H -> forall priv pub, (forall k, priv = Some k -> wf_bytes (pk_raw k)) ->
  (n_new_key_pair H priv pub = Panic <-> priv = None /\ pub = None).
Proof. exact n_new_key_pair_panic. Qed.
Theorem C70_generate : forall H, hash_ok 64 H -> forall src, wf_bytes src -> n_generate_key_pair H src <> Panic.
Proof. exact n_generate_no_panic. Qed.
Theorem C70_same_generate : forall H src,
  n_generate_key_pair H src = (do r <- generate_key_pair H src; Ok (of_keypair (fst r), snd r)).
Proof. exact n_generate_agree. Qed.
(** NewBlockCipher reads the recipient's public key. *)
Theorem C70_new_block_cipher : forall s r, n_new_block_cipher s r = Panic <-> r = None \/ exists k, r = Some (GoKP k None).
Proof. exact n_new_block_cipher_panic. Qed.
(** Encrypt: once the salt is read, without sender, or without the sender's private key if the recipient's key decodes. *)
Theorem C70_encrypt : forall H, hash_ok 64 H -> forall G, hash1_ok 32 G -> forall E D, cipher_ok E D -> forall s r bc src m,
  wf_bytes src -> wf_bytes m ->
  (forall p k, s = Some p -> gk_priv p = Some k -> wf_bytes (pk_raw k)) -> (forall p b, r = Some p -> gk_pub p = Some b -> wf_bytes b) ->
  n_new_block_cipher s r = Ok bc ->
  exists p pub, r = Some p /\ gk_pub p = Some pub /\
  (n_encrypt H G E bc src m = Panic <-> (length pub <= length src)%nat /\
     (s = None \/ exists q, s = Some q /\ gk_priv q = None /\ length pub = 32%nat /\ exists P, denotes pub P)).
Proof. exact n_encrypt_panic. Qed.
(** Decrypt: inputs of at least 64 bytes, if the recipient's key is longer than 48 bytes, the sender or its public key is
    missing, or that key decodes and the recipient has no private key, its public key does not have 32 bytes or the input is not
    made of whole blocks. *)
Theorem C70_decrypt : forall H, hash_ok 64 H -> forall G, hash1_ok 32 G -> forall E D, cipher_ok E D -> forall s r bc input,
  wf_bytes input ->
  (forall p k, r = Some p -> gk_priv p = Some k -> wf_bytes (pk_raw k)) -> (forall p b, s = Some p -> gk_pub p = Some b -> wf_bytes b) ->
  n_new_block_cipher s r = Ok bc ->
  exists p rpub, r = Some p /\ gk_pub p = Some rpub /\
  (n_decrypt H G D bc input = Panic <-> (64 <= length input)%nat /\
     ((48 < length rpub)%nat \/ s = None \/ exists q, s = Some q /\ (gk_pub q = None \/
       exists spub, gk_pub q = Some spub /\ length spub = 32%nat /\ (exists P, denotes spub P) /\
         (gk_priv p = None \/ length rpub <> 32%nat \/ (length input mod 16 <> 0)%nat)))).
Proof. exact n_decrypt_panic. Qed.
(** DerivePublicKey, HasPrivateKey, IsCanonicalSignature and MakeSignatureCanonical panic on nil and on nothing else,
    whatever the lengths of R and S; on other pointers they are the calls of the other properties. *)
Theorem C70_derive : forall H, hash_ok 64 H -> forall priv, (forall k, priv = Some k -> wf_bytes (pk_raw k)) ->
  (n_derive_public_key H priv = Panic <-> priv = None).
Proof. exact n_derive_panic. Qed.
Theorem C70_has_private_key : forall kp, n_has_private_key kp = Panic <-> kp = None.
Proof. exact n_has_private_panic. Qed.
Theorem C70_is_canonical : forall sg, n_is_canonical_signature sg = Panic <-> sg = None.
Proof. exact n_canonical_panic. Qed.
Theorem C70_make_canonical : forall sg, n_make_signature_canonical sg = Panic <-> sg = None.
Proof. exact n_make_canonical_panic. Qed.
Theorem C70_same_helpers : forall H k sg kp,
  n_derive_public_key H (Some k) = derive_public_key H k /\
  n_is_canonical_signature (Some sg) = Ok (is_canonical_signature sg) /\
  n_make_signature_canonical (Some sg) = make_signature_canonical sg /\
  n_has_private_key (Some (of_keypair kp)) = Ok (has_private_key kp).
Proof. exact n_same_calls_2. Qed.
(** GetSharedKey, an exported method of the block cipher, with any keys and salt: [n] is the length of the recipient's
    public key the cipher was made with.  It panics without public key, and, if that key decodes, without private key,
    for n above 32 and for a salt shorter than n. *)
Theorem C70_get_shared_key : forall H, hash_ok 64 H -> forall G, hash1_ok 32 G -> forall n priv pub salt,
  (forall b, pub = Some b -> wf_bytes b) -> wf_bytes salt -> (forall k, priv = Some k -> wf_bytes (pk_raw k)) ->
  (n_get_shared_key H G n priv pub salt = Panic <->
   pub = None \/ exists b, pub = Some b /\ length b = 32%nat /\ (exists P, denotes b P) /\
     (priv = None \/ (32 < n)%nat \/ (length salt < n)%nat)).
Proof. exact n_shared_panic. Qed.
(** And its value, for every length of the salt and every n: the first n bytes are xored with the salt, a longer salt
    is cut off. *)
Theorem C31_every_call : forall H, hash_ok 64 H -> forall G n k pub salt, wf_bytes (pk_raw k) -> wf_bytes pub ->
  (length pub <> 32%nat -> get_shared_key H G n (Some k) pub salt = Err ErrEncodedGroup) /\
  (length pub = 32%nat -> (forall P, ~ denotes pub P) -> get_shared_key H G n (Some k) pub salt = Err ErrNotOnCurve) /\
  (forall P, length pub = 32%nat -> denotes pub P ->
     let x := enc_point (zmul (secret_scalar H (pk_raw k)) P) in
     ((n <= 32)%nat -> (n <= length salt)%nat ->
      get_shared_key H G n (Some k) pub salt = Ok (G (xor_bytes (firstn n x) (firstn n salt) ++ skipn n x))) /\
     ((32 < n)%nat \/ (length salt < n)%nat -> get_shared_key H G n (Some k) pub salt = Panic)).
Proof. exact shared_value. Qed.
(** With the library's constructors: Sign and Verify never panic on a pair from NewKeyPair and a signature from NewSignature;
    with both private keys Encrypt never does, and Decrypt only on at least 64 bytes that are not whole blocks. *)
Theorem C70_constructed_sign_verify : forall H, hash_ok 64 H -> forall priv pub kp m r s sg,
  (forall k, priv = Some k -> wf_bytes (pk_raw k)) -> (forall b, pub = Some b -> wf_bytes b) ->
  wf_bytes m -> wf_bytes r -> wf_bytes s -> n_new_key_pair H priv pub = Ok kp -> new_signature r s = Ok sg ->
  n_sign H (Some kp) m <> Panic /\ n_verify H (Some kp) m (Some sg) <> Panic.
Proof. exact constructed_sign_verify. Qed.
Theorem C70_constructed_cipher : forall H, hash_ok 64 H -> forall G, hash1_ok 32 G -> forall E D, cipher_ok E D ->
  forall k1 pub1 kp1 k2 pub2 kp2, wf_bytes (pk_raw k1) -> wf_bytes (pk_raw k2) ->
  (forall b, pub1 = Some b -> wf_bytes b) -> (forall b, pub2 = Some b -> wf_bytes b) ->
  n_new_key_pair H (Some k1) pub1 = Ok kp1 -> n_new_key_pair H (Some k2) pub2 = Ok kp2 ->
  exists bc, n_new_block_cipher (Some kp1) (Some kp2) = Ok bc /\
    (forall src m, wf_bytes src -> wf_bytes m -> n_encrypt H G E bc src m <> Panic) /\
    (forall input, wf_bytes input -> (length input < 64)%nat \/ (length input mod 16 = 0)%nat -> n_decrypt H G D bc input <> Panic).
Proof. exact constructed_cipher. Qed.
(** Without nil pointers these are the calls of the other properties. *)
Theorem C70_same_calls : forall H G E D kp s r m sg src input priv pub,
  n_sign H (Some (of_keypair kp)) m = sign H kp m /\
  n_verify H (Some (of_keypair kp)) m (Some sg) = verify H kp m sg /\
  (forall p, n_new_key_pair H priv pub = Ok p <-> exists q, new_key_pair H priv pub = Ok q /\ p = of_keypair q) /\
  exists bc, n_new_block_cipher (Some (of_keypair s)) (Some (of_keypair r)) = Ok bc /\
    n_encrypt H G E bc src m = encrypt H G E (new_block_cipher s r) src m /\
    n_decrypt H G D bc input = decrypt H G D (new_block_cipher s r) input.
Proof.
  exact (fun H G E D kp s r m sg src input priv pub =>
    conj (n_sign_agree H kp m) (conj (n_verify_agree H kp m sg) (conj (n_new_key_pair_agree H priv pub)
      (ex_intro _ _ (conj (proj1 (n_encrypt_agree H G E s r src m)) (conj (proj2 (n_encrypt_agree H G E s r src m)) (n_decrypt_agree H G D s r input))))))).
Qed.
Example C70_nonvacuous : n_verify H7 None [] (Some (Sig (all_zero 32) (all_zero 32))) = Ok false /\
  n_verify H7 None [] (Some (Sig (all_zero 32) (le_bytes 32 1))) = Panic /\
  exists s pub, low64 (le_val (sS s)) <> 0 /\ low64 (le_val (sS s)) <> low64 q25519 /\ (length (sS s) < 32)%nat /\ pub <> all_zero 32 /\
    length pub = 32%nat /\ wf_bytes (sR s) /\ wf_bytes (sS s) /\ wf_bytes pub /\ exists A, denotes pub A.
Proof. exact ex_order. Qed.
Example C70_nonvacuous_constructed : exists k1 kp1 k2 kp2 sg, wf_bytes (pk_raw k1) /\ wf_bytes (pk_raw k2) /\
  n_new_key_pair H7 (Some k1) None = Ok kp1 /\ n_new_key_pair H7 (Some k2) (Some neutral_key) = Ok kp2 /\ new_signature (all_zero 32) (all_zero 32) = Ok sg.
Proof. exact ex_constructed. Qed.

Print Assumptions C70_sign.
Print Assumptions C70_verify.
Print Assumptions C70_new_key_pair.
Print Assumptions C70_generate.
Print Assumptions C70_same_generate.
Print Assumptions C70_new_block_cipher.
Print Assumptions C70_encrypt.
Print Assumptions C70_decrypt.
Print Assumptions C70_constructed_sign_verify.
Print Assumptions C70_constructed_cipher.
Print Assumptions C70_same_calls.
Print Assumptions C70_get_shared_key.
Print Assumptions C31_every_call.
Print Assumptions C70_derive.
Print Assumptions C70_has_private_key.
Print Assumptions C70_is_canonical.
Print Assumptions C70_make_canonical.
Print Assumptions C70_same_helpers.
