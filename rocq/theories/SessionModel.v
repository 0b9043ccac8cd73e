(** Histories of API calls that draw from random sources.

    [ApiModel] passes the random source of one call as the list of bytes it will deliver.  Here a
    source is an io.Reader: it delivers its bytes in chunks, with or without errors; engines carry a
    reader of their own or share crypto/rand's; and calls follow each other, also after failures. *)
From Verif Require Import GoBase ApiModel.
Open Scope Z_scope.

(** ** io.Reader and io.ReadFull (Go standard library, contract) *)

(** Errors a Read may return next to its bytes. *)
Inductive rerr : Set := REOF | ROther (n : nat).
(** What a reader will do: each event is what one Read returns if the buffer is large enough; a
    longer chunk is handed out in parts, its error with the last part.  After the last event every
    Read returns (0, io.EOF). *)
Definition reader := list (bytes * option rerr).
(** [r.Read(buf)] with len(buf) = n. *)
Definition read1 (r : reader) (n : nat) : bytes * option rerr * reader :=
  match r with
  | [] => ([], Some REOF, [])
  | (c, e) :: r' => if Nat.ltb n (length c) then (firstn n c, None, (skipn n c, e) :: r') else (c, e, r')
  end.
(** the loop of io.ReadAtLeast: read until n bytes are there or an error comes with a Read.  [fuel]
    bounds the number of Reads; [length r + 1] of them are enough ([SessionProofs.fuel_enough]). *)
Fixpoint read_loop (fuel : nat) (r : reader) (n : nat) : bytes * option rerr * reader :=
  match n, fuel with
  | O, _ => ([], None, r)
  | _, O => ([], None, r)
  | _, S f =>
    match read1 r n with
    | (c, Some e, r') => (c, Some e, r')
    | (c, None, r') => let '(c', e', r'') := read_loop f r' (n - length c) in (c ++ c', e', r'')
    end
  end.
(** Errors io.ReadFull returns: io.EOF when no byte was read, io.ErrUnexpectedEOF when some were. *)
Inductive ioerr : Set := IoEOF | IoUnexpectedEOF | IoOther (n : nat).
Definition io_error (got : bytes) (e : option rerr) : ioerr :=
  match e with
  | Some (ROther k) => IoOther k
  | _ => match got with [] => IoEOF | _ => IoUnexpectedEOF end
  end.
(** [io.ReadFull(r, make([]byte, n))]: an error that comes with the last byte needed is dropped. *)
Definition read_full_r (r : reader) (n : nat) : (bytes + ioerr) * reader :=
  let '(c, e, r') := read_loop (S (length r)) r n in
  (if Nat.leb n (length c) then inl c else inr (io_error c e), r').

(** ** Results of calls *)
Inductive value : Set :=
| VPair (k : keypair) | VBytes (b : bytes) | VSig (s : signature) | VBool (b : bool).
(** a value, an error of the library, an error of the reader passed on, a run-time panic *)
Inductive outcome : Set := Value (v : value) | LibError (e : err) | ReadError (e : ioerr) | Panicked.
Definition of_res {A} (f : A -> value) (r : res A) : outcome :=
  match r with Ok a => Value (f a) | Err e => LibError e | Panic => Panicked end.

Section Session.
Variable H512 : list bytes -> bytes.
Variable H256 : bytes -> bytes.
Variable aesE aesD : bytes -> bytes -> bytes.

(** [GenerateKeyPair], ed25519_model.go:360-371. *)
Definition generate_r (r : reader) : outcome * reader :=
  match read_full_r r 32 with
  | (inr e, r') => (ReadError e, r')
  | (inl seed, r') =>
      (of_res VPair (let privateKey := new_private_key seed in
                     do publicKey <- derive_public_key H512 privateKey;
                     new_key_pair H512 (Some privateKey) (Some publicKey)), r')
  end.
(** [Encrypt], ed25519_model.go:147-175. *)
Definition encrypt_r (bc : blockcipher) (r : reader) (input : bytes) : outcome * reader :=
  match read_full_r r (bc_keylen bc) with
  | (inr e, r1) => (ReadError e, r1)
  | (inl salt, r1) =>
    match get_shared_key H512 H256 (bc_keylen bc) (kp_priv (bc_sender bc)) (kp_pub (bc_recipient bc)) salt with
    | Err e => (LibError e, r1)
    | Panic => (Panicked, r1)
    | Ok sharedKey =>
      match read_full_r r1 16 with
      | (inr e, r2) => (ReadError e, r2)
      | (inl ivData, r2) =>
          (of_res VBytes (do buf <- bc_encode aesE input sharedKey ivData; Ok ((salt ++ ivData) ++ buf)), r2)
      end
    end
  end.

(** ** Engines and calls *)

(** [Ed25519SeedCryptoEngine], ed25519_model.go:17-19: its seed; None = nil, which
    NewEd25519KeyGenerator (:351-357) and NewEd25519BlockCipher (:50-53) replace by rand.Reader.
    Reader 0 is rand.Reader, reader i + 1 the i-th reader of the program.  CryptoEngines.DefaultEngine
    and CryptoEngines.Ed25519Engine (crypto_engine.go:26-29) both have seed nil. *)
Definition engine := option nat.
Definition seed_of (e : engine) : nat := match e with None => O | Some i => S i end.
(** Calls; [option engine] is an interface argument that may be nil, in which case the default engine
    is used (cipher_model.go:12-14, key_pair.go:25-27, signer.go:19-21); NewKeyPairByEngine
    (key_pair.go:38-40) has no such test: the method call on nil panics.  NewRandomKeyPair
    (key_pair.go:16-18) is [CGenerate] with the default engine. *)
Inductive call : Set :=
| CGenerate (e : option engine)
| CNewKeyPair (priv : option privkey) (pub : option bytes) (e : option engine)
| CEncrypt (s r : keypair) (e : option engine) (input : bytes)
| CDecrypt (s r : keypair) (e : option engine) (input : bytes)
| CSign (k : keypair) (e : option engine) (mess : bytes)
| CVerify (k : keypair) (e : option engine) (mess : bytes) (sg : signature)
| CIsCanonical (k : keypair) (e : option engine) (sg : signature)
| CMakeCanonical (k : keypair) (e : option engine) (sg : signature).
Definition default_engine : engine := None.
Definition or_default (e : option engine) : engine := match e with Some x => x | None => default_engine end.

(** the readers of the program *)
Definition world := nat -> reader.
Definition set_reader (w : world) (i : nat) (r : reader) : world :=
  fun j => if Nat.eqb j i then r else w j.

(** NewBlockCipher(...).Encrypt, NewSignerFromKeyPair(...).Sign etc.: cipher_model.go:11-16,
    signer.go:13-47, CreateBlockCipher etc. ed25519_model.go:22-39. *)
Definition do_call (c : call) (w : world) : outcome * world :=
  match c with
  | CGenerate None => (Panicked, w)
  | CGenerate (Some e) =>
      let (o, r) := generate_r (w (seed_of e)) in (o, set_reader w (seed_of e) r)
  | CNewKeyPair priv pub _ => (of_res VPair (new_key_pair H512 priv pub), w)
  | CEncrypt s r e input =>
      let i := seed_of (or_default e) in
      let (o, rd) := encrypt_r (new_block_cipher s r) (w i) input in (o, set_reader w i rd)
  | CDecrypt s r _ input => (of_res VBytes (decrypt H512 H256 aesD (new_block_cipher s r) input), w)
  | CSign k _ m => (of_res VSig (sign H512 k m), w)
  | CVerify k _ m sg => (of_res VBool (verify H512 k m sg), w)
  | CIsCanonical _ _ sg => (Value (VBool (is_canonical_signature sg)), w)
  | CMakeCanonical _ _ sg => (of_res VSig (make_signature_canonical sg), w)
  end.
(** a history: calls one after the other, each on the readers the one before left *)
Fixpoint run (cs : list call) (w : world) : list outcome * world :=
  match cs with
  | [] => ([], w)
  | c :: cs' => let (o, w1) := do_call c w in let (os, w2) := run cs' w1 in (o :: os, w2)
  end.
End Session.
