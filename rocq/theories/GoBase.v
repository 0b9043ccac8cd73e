(** Go values and the result type used by all models.

    - a Go byte slice is a list of integers, each between 0 and 255;
    - a Go call returns [Ok v], [Err e] (an error value returned next to nil) or
      [Panic] (a run-time panic: index out of range, nil dereference, explicit panic). *)
From Coq Require Export List ZArith Lia Bool.
Export ListNotations.
Open Scope Z_scope.

(** Error values.  The code base distinguishes errors only by message; the model
    keeps one constructor per message that occurs in the modelled functions. *)
Inductive err : Set :=
| ErrNoPrivateKey          (* "cannot sign without private key", ed25519_model.go:209 *)
| ErrNotCanonical          (* "Generated signature is not canonical", ed25519_model.go:262 *)
| ErrNewSignature          (* errBadParamNewSignature, signature.go:23 *)
| ErrNewSignatureBigInt    (* errBadParamNewSignatureBigInt, signature.go:24 *)
| ErrNewSignatureFromBytes (* errBadParamNewSignatureFromBytes, signature.go:25 *)
| ErrPrivateKeySize        (* ErrInvalidSizePrivateKey, key_model.go:16 *)
| ErrPublicKeySize         (* ErrInvalidSizePublicKey, key_model.go:17 *)
| ErrNotCompressed         (* "publicKey must be in compressed form", key_pair.go:32 *)
| ErrHex                   (* error of encoding/hex *)
| ErrEncodedField          (* "Invalid 2^8 bit representation.", ed25519_encode.go:939 *)
| ErrEncodedGroup          (* "Invalid encoded group element.", ed25519_encode.go:1811 *)
| ErrNotOnCurve            (* "not a valid Ed25519EncodedGroupElement.", ed25519_encode.go:1860 *)
| ErrUnsupported           (* "NewUnsupportedOperationException", several *)
| ErrIllegalArgument       (* "NewIllegalArgumentException(", ed25519_encode.go:2623 *)
| ErrCmov                  (* "parameter 'b' must by in range {0,1}", ed25519_encode.go:2790 *)
| ErrEOF                   (* io.EOF / io.ErrUnexpectedEOF of io.ReadFull *)
| ErrTooShort              (* "input is to short for decryption", ed25519_model.go:180 *)
| ErrPaddingSize           (* "blocks are corrupted, paddingSize is wrong", ed25519_model.go:105 *)
| ErrPaddingByte           (* "blocks are corrupted, fake byte ...", ed25519_model.go:112 *)
| ErrAesKeySize            (* aes.KeySizeError *)
| ErrNoTCoordinate         (* "coordinate T must not nil for P!XP1 ", math.go:278 *)
| ErrNotGroupElement.      (* errNoValidEd25519Group, math.go:188 *)

Inductive res (A : Type) : Type :=
| Ok (a : A)
| Err (e : err)
| Panic.
Arguments Ok {A} a.
Arguments Err {A} e.
Arguments Panic {A}.

Definition bind {A B} (x : res A) (f : A -> res B) : res B :=
  match x with Ok a => f a | Err e => Err e | Panic => Panic end.
Notation "'do' x <- e ; f" := (bind e (fun x => f))
  (at level 200, x name, e at level 100, f at level 200, right associativity).

(** Bytes and byte strings. *)
Definition is_byte (b : Z) : Prop := 0 <= b < 256.
Definition bytes := list Z.
Definition wf_bytes (l : bytes) : Prop := Forall is_byte l.

(** Little endian value of a byte string (the meaning of every encoding in this library). *)
Fixpoint le_val (l : bytes) : Z :=
  match l with [] => 0 | b :: r => b + 256 * le_val r end.

(** The [n]-byte little endian encoding of the low [8n] bits of [v]. *)
Fixpoint le_bytes (n : nat) (v : Z) : bytes :=
  match n with O => [] | S k => (v mod 256) :: le_bytes k (v / 256) end.

(** Indexing [b[i]]: panics when out of range (Go specification). *)
Definition nth_r (l : bytes) (i : nat) : res Z :=
  match nth_error l i with Some x => Ok x | None => Panic end.

(** Total indexing used where the length has been checked by the caller. *)
Definition byte_at (l : bytes) (i : nat) : Z := nth i l 0.

(** Wrap-around of Go's int64 and int8. *)
Definition w64 (x : Z) : Z := (x + 2^63) mod 2^64 - 2^63.
Definition w8 (x : Z) : Z := (x + 128) mod 256 - 128.
Definition in64 (x : Z) : Prop := - 2^63 <= x < 2^63.

(** Conversion [byte(x)] of an int64. *)
Definition to_byte (x : Z) : Z := x mod 256.

Definition all_zero (n : nat) : bytes := repeat 0 n.

Fixpoint beq_bytes (a b : bytes) : bool :=
  match a, b with
  | [], [] => true
  | x :: a', y :: b' => (x =? y) && beq_bytes a' b'
  | _, _ => false
  end.
