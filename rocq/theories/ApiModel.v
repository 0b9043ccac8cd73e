(** The exported API: keys, key pairs, signatures, signer, key generator, block cipher.

    Parameters of the model (the code calls libraries that are not in /repo):
    - [H512 parts]: [HashesSha3_512(parts...)], crypto.go:49-61;
    - [H256 b]: [HashesSha3_256(b)], crypto.go:38-46;
    - [aesE key block], [aesD key block]: the AES block function of crypto/aes and its inverse.
    Everything below is stated for every choice of them; [HashModel] and [AesModel] provide the
    concrete ones.  A random source is the list of the bytes it will deliver. *)
From Verif Require Import GoBase FieldModel FieldSpec GroupModel ScalarModel.
Open Scope Z_scope.

(** ** Byte-level helpers of the Go libraries *)

(** [(&big.Int{}).SetBytes(raw)] (math/big): big endian value. *)
Definition be_val (l : bytes) : Z := le_val (rev l).
(** [val.Bytes()] (math/big): big endian absolute value without leading zeros. *)
Definition be_min (v : Z) : bytes :=
  let a := Z.abs v in
  if a =? 0 then [] else rev (le_bytes (Z.to_nat (Z.log2 a / 8 + 1)) a).
(** [x.Uint64()] (math/big): the low 64 bits of the absolute value. *)
Definition uint64_of (v : Z) : Z := Z.abs v mod 2 ^ 64.
(** [utils.BytesToBigInteger], [utils.BigIntToByteArray(v, 32)] (go-xpx-utils, contract): little
    endian, absolute value, excess high bytes dropped. *)
Definition utils_BytesToBigInteger (b : bytes) : Z := le_val b.
Definition utils_BigIntToByteArray (v : Z) (n : nat) : bytes := le_bytes n (Z.abs v).

(** encoding/hex: [hexdigit] of EncodeToString, [hexval] of DecodeString, on ASCII codes. *)
Definition hexdigit (n : Z) : Z := if n <? 10 then 48 + n else 87 + n.
Definition hexval (c : Z) : option Z :=
  if (48 <=? c) && (c <=? 57) then Some (c - 48)
  else if (97 <=? c) && (c <=? 102) then Some (c - 87)
  else if (65 <=? c) && (c <=? 70) then Some (c - 55)
  else None.
Definition hex_encode (b : bytes) : bytes :=
  flat_map (fun x => [hexdigit (x / 16); hexdigit (x mod 16)]) b.
Fixpoint hex_decode (s : bytes) : res bytes :=
  match s with
  | [] => Ok []
  | [_] => Err ErrHex
  | c :: d :: r =>
      match hexval c, hexval d with
      | Some x, Some y => do t <- hex_decode r; Ok (16 * x + y :: t)
      | _, _ => Err ErrHex
      end
  end.
(** [utils.HexDecodeStringOdd] (go-xpx-utils, contract): a "0" is put in front of a string of odd
    length. *)
Definition hex_decode_odd (s : bytes) : res bytes :=
  if Nat.odd (length s) then hex_decode (48 :: s) else hex_decode s.
(** [strings.ToUpper] on ASCII. *)
Definition to_upper (s : bytes) : bytes :=
  map (fun c => if (97 <=? c) && (c <=? 122) then c - 32 else c) s.

(** [io.ReadFull(src, make([]byte, n))]: the bytes read and what is left. *)
Definition read_full (src : bytes) (n : nat) : res (bytes * bytes) :=
  if Nat.ltb (length src) n then Err ErrEOF else Ok (firstn n src, skipn n src).

(** ** Keys, key_model.go *)

(** [PrivateKey], key_model.go:34-38. *)
Record privkey : Set := PrivKey { pk_value : Z; pk_raw : bytes }.
(** [NewPrivateKey], key_model.go:41-43. *)
Definition new_private_key (raw : bytes) : privkey := PrivKey (be_val raw) raw.
(** [NewPrivateKeyFromBigInt], key_model.go:46-48. *)
Definition new_private_key_from_bigint (v : Z) : privkey := PrivKey v (be_min v).
(** [NewPrivateKeyfromHexString], key_model.go:51-62. *)
Definition new_private_key_from_hex (s : bytes) : res privkey :=
  do raw <- hex_decode_odd s;
  if Nat.eqb (length raw) 32 then Ok (new_private_key raw) else Err ErrPrivateKeySize.
(** [PrivateKey.String], key_model.go:64-66. *)
Definition private_key_string (k : privkey) : bytes := hex_encode (pk_raw k).
(** [PublicKey] (key_model.go:69-71, [NewPublicKey] key_model.go:74-76) is modelled by its Raw field.  [NewPublicKeyfromHex],
    key_model.go:79-90. *)
Definition new_public_key_from_hex (s : bytes) : res bytes :=
  do raw <- hex_decode_odd s;
  if Nat.eqb (length raw) 32 then Ok raw else Err ErrPublicKeySize.
(** [PublicKey.hex], key_model.go:93-95; [PublicKey.String], key_model.go:97-99. *)
Definition public_key_hex (k : bytes) : bytes := hex_encode k.
Definition public_key_string (k : bytes) : bytes := to_upper (hex_encode k).
(** [IsKeyCompressed], ed25519_encode.go:43-46, of the analyzer without state ed25519_encode.go:32-38. *)
Definition is_key_compressed (k : bytes) : bool := Nat.eqb 32 (length k).

(** [KeyPair], key_pair.go:10-13.  A nil PublicKey (only possible in a struct literal written
    outside the constructors) is in [NilModel], not here. *)
Record keypair : Set := KeyPair { kp_priv : option privkey; kp_pub : bytes }.
(** [HasPrivateKey], key_pair.go:43-46. *)
Definition has_private_key (k : keypair) : bool :=
  match kp_priv k with Some _ => true | None => false end.

(** ** Signatures, signature.go (values; sharing of memory is in [AliasModel]) *)
Record signature : Set := Sig { sR : bytes; sS : bytes }.
(** [NewSignature], signature.go:29-35. *)
Definition new_signature (r s : bytes) : res signature :=
  if negb (Nat.eqb (length r) 32) || negb (Nat.eqb (length s) 32) then Err ErrNewSignature
  else Ok (Sig r s).
(** [NewSignatureFromBigInt], signature.go:38-50; None = a nil pointer. *)
Definition max_int32 : Z := 2 ^ 31 - 1.
Definition new_signature_from_bigint (r s : option Z) : res signature :=
  match r, s with
  | Some r, Some s =>
      if (max_int32 <? uint64_of r) || (max_int32 <? uint64_of s) then Err ErrNewSignatureBigInt
      else new_signature (utils_BigIntToByteArray r 32) (utils_BigIntToByteArray s 32)
  | _, _ => Err ErrNewSignatureBigInt
  end.
(** [NewSignatureFromBytes], signature.go:52-57. *)
Definition new_signature_from_bytes (b : bytes) : res signature :=
  if Nat.ltb (length b) 64 then Err ErrNewSignatureFromBytes
  else new_signature (firstn 32 b) (skipn 32 b).
(** [GetR], [GetS], signature.go:60-69. *)
Definition get_R (s : signature) : Z := utils_BytesToBigInteger (sR s).
Definition get_S (s : signature) : Z := utils_BytesToBigInteger (sS s).
(** [Bytes], signature.go:72-75; [String], :77-80. *)
Definition signature_bytes (s : signature) : bytes := sR s ++ sS s.
Definition signature_string (s : signature) : bytes := hex_encode (signature_bytes s).

(** [IsCanonicalSignature], ed25519_model.go:325-329; GROUP_ORDER is 2^252 + 277...493
    (ed25519_encode.go:1954-1968). *)
Definition is_canonical_signature (s : signature) : bool :=
  let sgnS := uint64_of (get_S s) in
  negb (sgnS =? uint64_of q25519) && (0 <? sgnS).

(** [MakeSignatureCanonical], ed25519_model.go:332-342. *)
Definition make_signature_canonical (s : signature) : res signature :=
  let sign := firstn 64 (sS s ++ all_zero 64) in
  do e <- new_efe sign;
  do sModQ <- sc_modQ e;
  new_signature (sR s) sModQ.

(** [Ed25519Group.BASE_POINT()], ed25519_encode.go:1935-1937, after [init], :1957-1980 (an error
    of getBasePoint is a panic). *)
Definition unwrap {A} (r : res A) : res A :=
  match r with Ok a => Ok a | _ => Panic end.
Definition base_point : res ge := do b <- unwrap get_base_point; g_copy b.

(** ** What needs the hash functions and the cipher *)
Section Api.
Variable H512 : list bytes -> bytes.
Variable H256 : bytes -> bytes.
Variable aesE aesD : bytes -> bytes -> bytes.

(** [PrepareForScalarMultiply], ed25519_encode.go:18-29. *)
Definition clamp (a : bytes) : bytes :=
  let a := upd a 31 (Z.land (byte_at a 31) 0x7F) in
  let a := upd a 31 (Z.lor (byte_at a 31) 0x40) in
  upd a 0 (Z.land (byte_at a 0) 0xF8).
Definition prepare_for_scalar_multiply (k : privkey) : res bytes :=
  let hash := H512 [pk_raw k] in
  if Nat.ltb (length hash) 32 then Panic else Ok (clamp (firstn 32 hash)).

(** [DerivePublicKey], ed25519_model.go:374-384. *)
Definition derive_public_key (k : privkey) : res bytes :=
  do a <- prepare_for_scalar_multiply k;
  do B <- base_point;
  do pubKey <- unwrap (g_scalarMultiply B a);
  unwrap (g_encode pubKey).

(** [NewKeyPair] with the Ed25519 engine, key_pair.go:23-35; None = a nil pointer. *)
Definition new_key_pair (priv : option privkey) (pub : option bytes) : res keypair :=
  match pub with
  | None => match priv with
            | None => Panic
            | Some k => do p <- derive_public_key k; Ok (KeyPair priv p)
            end
  | Some p => if is_key_compressed p then Ok (KeyPair priv p) else Err ErrNotCompressed
  end.

(** [GenerateKeyPair], ed25519_model.go:360-371, with the bytes left in the source. *)
Definition generate_key_pair (src : bytes) : res (keypair * bytes) :=
  do sr <- read_full src 32;
  let privateKey := new_private_key (fst sr) in
  do publicKey <- derive_public_key privateKey;
  do kp <- new_key_pair (Some privateKey) (Some publicKey);
  Ok (kp, snd sr).

(** [Ed25519DsaSigner.Sign], ed25519_model.go:206-266; the signer, ed25519_model.go:196-203, is its key pair. *)
Definition sign (kp : keypair) (mess : bytes) : res signature :=
  if negb (has_private_key kp) then Err ErrNoPrivateKey else
  do k <- deref (kp_priv kp);
  let hash := H512 [pk_raw k] in
  if Nat.ltb (length hash) 32 then Panic else
  let hashR := H512 [skipn 32 hash; mess] in
  do r <- new_efe hashR;
  do rModQ <- sc_modQ r;
  do B <- base_point;
  do R <- g_scalarMultiply B rModQ;
  do encodedR <- g_encode R;
  let hashH := H512 [encodedR; kp_pub kp; mess] in
  do h <- new_efe hashH;
  do hModQ <- sc_modQ h;
  do a <- prepare_for_scalar_multiply k;
  do encodedS <- sc_mulAdd hModQ a rModQ;
  do sg <- new_signature encodedR encodedS;
  if negb (is_canonical_signature sg) then Err ErrNotCanonical else Ok sg.

(** [Ed25519DsaSigner.Verify], ed25519_model.go:270-322: an error of a step gives false (the
    message printed is not modelled). *)
Definition or_false (r : res bool) : res bool :=
  match r with Err _ => Ok false | _ => r end.
Definition verify (kp : keypair) (mess : bytes) (sg : signature) : res bool :=
  if negb (is_canonical_signature sg) then Ok false else
  if beq_bytes (kp_pub kp) (all_zero 32) then Ok false else
  let hashR := H512 [sR sg; kp_pub kp; mess] in
  or_false (
    do h <- new_efe hashR;
    do hModQ <- sc_modQ h;
    do A0 <- g_decode (kp_pub kp);
    do A <- g_precompute_double (new_ge A0);
    do B <- base_point;
    do calculatedR <- g_doubleScalarMultiply B A hModQ (sS sg);
    do encodedCalculatedR <- g_encode calculatedR;
    Ok (beq_bytes encodedCalculatedR (sR sg))).

(** ** Block cipher, ed25519_model.go:41-193 *)

(** [Ed25519BlockCipher] and its constructor, ed25519_model.go:41-62 (the random source is passed separately). *)
Record blockcipher : Set := BC { bc_sender : keypair; bc_recipient : keypair; bc_keylen : nat }.
Definition new_block_cipher (s r : keypair) : blockcipher := BC s r (length (kp_pub r)).

Fixpoint xor_bytes (a b : bytes) : bytes :=
  match a, b with
  | x :: a', y :: b' => Z.lxor x y :: xor_bytes a' b'
  | _, _ => []
  end.
(** the loop ed25519_model.go:139-141 over i < n, indexing both slices *)
Fixpoint xor_prefix (n : nat) (k salt : bytes) : res bytes :=
  match n with
  | O => Ok k
  | S n' => match k, salt with
            | x :: k', y :: s' => do r <- xor_prefix n' k' s'; Ok (Z.lxor x y :: r)
            | _, _ => Panic
            end
  end.

(** [GetSharedKey], ed25519_model.go:120-144. *)
Definition get_shared_key (n : nat) (priv : option privkey) (pub salt : bytes) : res bytes :=
  do grA <- new_ege pub;
  do c <- g_decode grA;
  do senderA <- g_precompute_single (new_ge c);
  do k <- deref priv;
  do a <- prepare_for_scalar_multiply k;
  do el <- g_scalarMultiply senderA a;
  do sharedKey <- g_encode el;
  do x <- xor_prefix n sharedKey salt;
  Ok (H256 x).

(** crypto/aes and crypto/cipher (Go standard library, contract): key sizes; CBC; panics on a
    wrong iv length and on partial blocks. *)
Definition aes_key_ok (key : bytes) : bool :=
  Nat.eqb (length key) 16 || Nat.eqb (length key) 24 || Nat.eqb (length key) 32.
Fixpoint cbc_enc (n : nat) (key iv p : bytes) : bytes :=
  match n with
  | O => []
  | S n' => let c := aesE key (xor_bytes (firstn 16 p) iv) in c ++ cbc_enc n' key c (skipn 16 p)
  end.
Fixpoint cbc_dec (n : nat) (key iv c : bytes) : bytes :=
  match n with
  | O => []
  | S n' => xor_bytes (aesD key (firstn 16 c)) iv ++ cbc_dec n' key (firstn 16 c) (skipn 16 c)
  end.
Definition crypt_blocks (f : nat -> bytes -> bytes -> bytes -> bytes) (key iv p : bytes) : res bytes :=
  if negb (Nat.eqb (length iv) 16) then Panic else
  if negb (Nat.eqb (length p mod 16) 0) then Panic else
  Ok (f (length p / 16)%nat key iv p).

(** [encode], ed25519_model.go:64-88. *)
Definition pad (m : bytes) : bytes :=
  let paddingSize := (16 - length m mod 16)%nat in
  m ++ repeat (Z.of_nat paddingSize) paddingSize.
Definition bc_encode (message sharedKey ivData : bytes) : res bytes :=
  if negb (aes_key_ok sharedKey) then Err ErrAesKeySize else
  crypt_blocks cbc_enc sharedKey ivData (pad message).

(** [decode], ed25519_model.go:90-117. *)
Definition unpad (buf : bytes) : res bytes :=
  match buf with
  | [] => Panic
  | _ =>
    let bufferSize := length buf in
    let paddingSize := byte_at buf (bufferSize - 1) in
    if (paddingSize =? 0) || (16 <? paddingSize) then Err ErrPaddingSize else
    let messageSize := Z.of_nat bufferSize - paddingSize in
    if messageSize <? 0 then Panic else
    if forallb (fun x => x =? paddingSize) (skipn (Z.to_nat messageSize) buf)
    then Ok (firstn (Z.to_nat messageSize) buf)
    else Err ErrPaddingByte
  end.
Definition bc_decode (ciphertext sharedKey ivData : bytes) : res bytes :=
  if negb (aes_key_ok sharedKey) then Err ErrAesKeySize else
  do buf <- crypt_blocks cbc_dec sharedKey ivData ciphertext;
  unpad buf.

(** [Encrypt], ed25519_model.go:147-175, with the bytes left in the source. *)
Definition encrypt (bc : blockcipher) (src input : bytes) : res (bytes * bytes) :=
  do r1 <- read_full src (bc_keylen bc);
  let salt := fst r1 in
  do sharedKey <- get_shared_key (bc_keylen bc) (kp_priv (bc_sender bc)) (kp_pub (bc_recipient bc)) salt;
  do r2 <- read_full (snd r1) 16;
  let ivData := fst r2 in
  do buf <- bc_encode input sharedKey ivData;
  Ok ((salt ++ ivData) ++ buf, snd r2).

(** a Go slice expression [b[i:j]] on a slice without spare capacity *)
Definition slice (b : bytes) (i j : nat) : res bytes :=
  if Nat.ltb j i || Nat.ltb (length b) j then Panic else Ok (firstn (j - i) (skipn i b)).
(** [Decrypt], ed25519_model.go:178-193. *)
Definition decrypt (bc : blockcipher) (input : bytes) : res bytes :=
  if Nat.ltb (length input) 64 then Err ErrTooShort else
  do salt <- slice input 0 (bc_keylen bc);
  do ivData <- slice input (bc_keylen bc) 48;
  do encData <- slice input 48 (length input);
  do sharedKey <- get_shared_key (bc_keylen bc) (kp_priv (bc_recipient bc)) (kp_pub (bc_sender bc)) salt;
  bc_decode encData sharedKey ivData.
End Api.
