(** Calls with nil pointers: the exported functions with every pointer possibly nil.

    A pointer is an option, None being nil; reading a field through a nil pointer panics ([deref]).  A [KeyPair]
    (key_pair.go:10-13) embeds two pointers, and a struct literal or a zero value can leave both nil.  The order
    in which pointers are followed and other conditions tested is that of the code: it decides between a panic,
    an error and a result.  A nil slice is an empty one.  The receivers (the signer and the block cipher) come
    from their constructors. *)
From Coq Require Import List ZArith.
From Verif Require Import GoBase FieldModel FieldSpec GroupModel ScalarModel ApiModel.
Import ListNotations.
Open Scope Z_scope.

(** [KeyPair], key_pair.go:10-13; [PublicKey] by its Raw field. *)
Record gokeypair : Set := GoKP { gk_priv : option privkey; gk_pub : option bytes }.
Definition of_keypair (kp : keypair) : gokeypair := GoKP (kp_priv kp) (Some (kp_pub kp)).

Section Nil.
Variable H512 : list bytes -> bytes.
Variable H256 : bytes -> bytes.
Variable aesE aesD : bytes -> bytes -> bytes.

(** [HasPrivateKey], key_pair.go:43-46. *)
Definition n_has_private_key (kp : option gokeypair) : res bool :=
  do p <- deref kp; Ok (match gk_priv p with Some _ => true | None => false end).
(** [DerivePublicKey], ed25519_model.go:374-384 with [PrepareForScalarMultiply], ed25519_encode.go:18-29
    ([privateKey.Raw] is the first thing read). *)
Definition n_derive_public_key (priv : option privkey) : res bytes :=
  do k <- deref priv; derive_public_key H512 k.
(** [NewKeyPair], key_pair.go:23-35 (the result is a non-nil pointer to the pair). *)
Definition n_new_key_pair (priv : option privkey) (pub : option bytes) : res gokeypair :=
  match pub with
  | None => do p <- n_derive_public_key priv; Ok (GoKP priv (Some p))
  | Some p => if negb (is_key_compressed p) then Err ErrNotCompressed else Ok (GoKP priv (Some p))
  end.
(** [GenerateKeyPair], ed25519_model.go:360-371. *)
Definition n_generate_key_pair (src : bytes) : res (gokeypair * bytes) :=
  do sr <- read_full src 32;
  let privateKey := Some (new_private_key (fst sr)) in
  do publicKey <- n_derive_public_key privateKey;
  do kp <- n_new_key_pair privateKey (Some publicKey);
  Ok (kp, snd sr).
(** [IsCanonicalSignature], ed25519_model.go:325-329, [GetS], signature.go:66-69. *)
Definition n_is_canonical_signature (sg : option signature) : res bool :=
  do s <- deref sg; Ok (is_canonical_signature s).
(** [MakeSignatureCanonical], ed25519_model.go:332-342. *)
Definition n_make_signature_canonical (sg : option signature) : res signature :=
  do s <- deref sg; make_signature_canonical s.
(** [Sign], ed25519_model.go:206-266; the public key is read at :244, after the point R is computed. *)
Definition n_sign (kp : option gokeypair) (mess : bytes) : res signature :=
  do b <- n_has_private_key kp;
  if negb b then Err ErrNoPrivateKey else
  do p <- deref kp;
  do k <- deref (gk_priv p);
  let hash := H512 [pk_raw k] in
  if Nat.ltb (length hash) 32 then Panic else
  let hashR := H512 [skipn 32 hash; mess] in
  do r <- new_efe hashR;
  do rModQ <- sc_modQ r;
  do B <- base_point;
  do R <- g_scalarMultiply B rModQ;
  do encodedR <- g_encode R;
  do pub <- deref (gk_pub p);
  let hashH := H512 [encodedR; pub; mess] in
  do h <- new_efe hashH;
  do hModQ <- sc_modQ h;
  do a <- prepare_for_scalar_multiply H512 k;
  do encodedS <- sc_mulAdd hModQ a rModQ;
  do sg <- new_signature encodedR encodedS;
  do c <- n_is_canonical_signature (Some sg);
  if negb c then Err ErrNotCanonical else Ok sg.
(** [Verify], ed25519_model.go:270-322; the signature is looked at before the key pair. *)
Definition n_verify (kp : option gokeypair) (mess : bytes) (sg : option signature) : res bool :=
  do c <- n_is_canonical_signature sg;
  if negb c then Ok false else
  do p <- deref kp;
  do pub <- deref (gk_pub p);
  do s <- deref sg;
  if beq_bytes pub (all_zero 32) then Ok false else
  let hashR := H512 [sR s; pub; mess] in
  or_false (
    do h <- new_efe hashR;
    do hModQ <- sc_modQ h;
    do A0 <- g_decode pub;
    do A <- g_precompute_double (new_ge A0);
    do B <- base_point;
    do calculatedR <- g_doubleScalarMultiply B A hModQ (sS s);
    do encodedCalculatedR <- g_encode calculatedR;
    Ok (beq_bytes encodedCalculatedR (sR s))).

(** [Ed25519BlockCipher], [NewEd25519BlockCipher], ed25519_model.go:41-62: only the recipient's public key is read. *)
Record goblockcipher : Set := GoBC { gb_sender : option gokeypair; gb_recipient : option gokeypair; gb_keylen : nat }.
Definition n_new_block_cipher (s r : option gokeypair) : res goblockcipher :=
  do p <- deref r;
  do pub <- deref (gk_pub p);
  Ok (GoBC s r (length pub)).
(** [GetSharedKey], ed25519_model.go:120-144: the public key is read first, the private key in [PrepareForScalarMultiply]. *)
Definition n_get_shared_key (n : nat) (priv : option privkey) (pub : option bytes) (salt : bytes) : res bytes :=
  do pub <- deref pub;
  get_shared_key H512 H256 n priv pub salt.
(** [Encrypt], ed25519_model.go:147-175: the salt is read from the source before the key pairs are looked at. *)
Definition n_encrypt (bc : goblockcipher) (src input : bytes) : res (bytes * bytes) :=
  do r1 <- read_full src (gb_keylen bc);
  let salt := fst r1 in
  do s <- deref (gb_sender bc);
  do r <- deref (gb_recipient bc);
  do sharedKey <- n_get_shared_key (gb_keylen bc) (gk_priv s) (gk_pub r) salt;
  do r2 <- read_full (snd r1) 16;
  let ivData := fst r2 in
  do buf <- bc_encode aesE input sharedKey ivData;
  Ok ((salt ++ ivData) ++ buf, snd r2).
(** [Decrypt], ed25519_model.go:178-193. *)
Definition n_decrypt (bc : goblockcipher) (input : bytes) : res bytes :=
  if Nat.ltb (length input) 64 then Err ErrTooShort else
  do salt <- slice input 0 (gb_keylen bc);
  do ivData <- slice input (gb_keylen bc) 48;
  do encData <- slice input 48 (length input);
  do r <- deref (gb_recipient bc);
  do s <- deref (gb_sender bc);
  do sharedKey <- n_get_shared_key (gb_keylen bc) (gk_priv r) (gk_pub s) salt;
  bc_decode aesD encData sharedKey ivData.
End Nil.
