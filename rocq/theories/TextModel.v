(** Model of the text forms and of the smaller exported parts: the [String] methods, the encoded
    elements as objects, [Select] in machine integers, histories of precomputations, and
    bouncycastle_crypto.go.  No proofs here.  A string is the list of its bytes. *)
From Coq Require Import List ZArith Bool Ascii String.
From Verif Require Import GoBase FieldModel GroupModel ApiModel.
Import ListNotations.
Open Scope Z_scope.

(** a Go string literal *)
Fixpoint lit (s : string) : bytes :=
  match s with
  | EmptyString => []
  | String c r => Z.of_N (N_of_ascii c) :: lit r
  end.
Definition newline : bytes := [10].

(** ** Encoded field elements *)

(** [Ed25519EncodedFieldElement], ed25519_encode.go:924-927. *)
Record efe : Set := Efe { e_zero : bytes; e_raw : bytes }.
(** [Ed25519FieldZeroShort], [Ed25519FieldZeroLong], ed25519_encode.go:81-88. *)
Definition zero_short : bytes := all_zero 32.
Definition zero_long : bytes := all_zero 64.
(** [NewEd25519EncodedFieldElement], ed25519_encode.go:931-940. *)
Definition efe_new (raw : bytes) : res efe :=
  if Nat.eqb (length raw) 32 then Ok (Efe zero_short raw)
  else if Nat.eqb (length raw) 64 then Ok (Efe zero_long raw)
  else Err ErrEncodedField.
(** [Equals], ed25519_encode.go:943-945 ([subtle.ConstantTimeCompare], crypto.go:89-91). *)
Definition efe_equals (a b : efe) : bool := ct_equal (e_raw a) (e_raw b).
(** [IsNegative], ed25519_encode.go:968-971: indexing an empty slice panics. *)
Definition efe_negative (a : efe) : res bool :=
  match e_raw a with [] => Panic | x :: _ => Ok (negb (Z.land x 1 =? 0)) end.
(** [IsNonZero], ed25519_encode.go:978-981. *)
Definition efe_nonzero (a : efe) : bool := negb (ct_equal (e_raw a) (e_zero a)).
(** [String], ed25519_encode.go:1798-1801. *)
Definition efe_string (a : efe) : bytes := hex_encode (e_raw a).
(** [Decode], ed25519_encode.go:989-1034. *)
Definition efe_decode (a : efe) : res fe := fe_decode (e_raw a).

(** [Ed25519FieldElement.Encode], ed25519_encode.go:853-894, as an object. *)
Definition fe_Encode (f : fe) : efe := Efe zero_short (fe_encode f).
(** [Ed25519FieldElement.String], ed25519_encode.go:916-919. *)
Definition fe_string (f : fe) : bytes := efe_string (fe_Encode f).

(** ** Encoded group elements *)

(** [Equals], ed25519_encode.go:1890-1893. *)
Definition ege_equals (a b : bytes) : bool := ct_equal a b.
(** [err.Error()] of the two errors [GetAffineX] can return, ed25519_encode.go:939 and 1860. *)
Definition err_text (e : err) : bytes :=
  match e with
  | ErrEncodedField => lit "Invalid 2^8 bit representation."
  | ErrNotOnCurve => lit "not a valid Ed25519EncodedGroupElement."
  | _ => []
  end.
(** [String], ed25519_encode.go:1895-1907. *)
Definition ege_string (raw : bytes) : res bytes :=
  match affine_x raw with
  | Panic => Panic
  | Err e => Ok (err_text e)
  | Ok x =>
      match affine_y raw with
      | Panic => Panic
      | Err e => Ok (err_text e)
      | Ok y => Ok (lit "x=" ++ fe_string x ++ newline ++ lit "y=" ++ fe_string y ++ newline)
      end
  end.

(** ** Group elements *)

(** [String], ed25519_encode.go:2900-2908: the four [String] calls are evaluated before Sprintf, the
    last one on a nil pointer when there is no T. *)
Definition g_string (g : gcore) : res bytes :=
  do T <- deref (gT g);
  Ok (lit "X=" ++ fe_string (gX g) ++ newline ++ lit "Y=" ++ fe_string (gY g) ++ newline ++
      lit "Z=" ++ fe_string (gZ g) ++ newline ++ lit "T=" ++ fe_string T ++ newline).

(** ** [Select] with its second argument a machine integer *)

(** [isConstantTimeByteEq], crypto.go:78-87, on int (the shifts and the or stay in range). *)
Definition byte_eq_int (b c : Z) : Z := is_byte_eq_ct b c.
(** the loop of [Select], ed25519_encode.go:2518-2526. *)
Fixpoint select_loop_int (bAbs : Z) (i : Z) (row : list gcore) (t : gcore) : res gcore :=
  match row with
  | [] => Ok t
  | el :: r => do t' <- g_cmov t el (byte_eq_int bAbs (i + 1)); select_loop_int bAbs (i + 1) r t'
  end.
(** [Select], ed25519_encode.go:2510-2533, with the wrap-around of int in the computation of |b|;
    a negative position panics. *)
Definition select_int (g : ge) (pos b : Z) : res gcore :=
  let bNegative := is_negative_ct b in
  let bAbs := w64 (b - w64 (Z.land (- bNegative) b * 2)) in
  if pos <? 0 then Panic else
  match single g with
  | None => Panic
  | Some rows =>
      match nth_error rows (Z.to_nat pos) with
      | None => Panic
      | Some row =>
          do t <- select_loop_int bAbs 0 row zero_precomputed;
          let z := fe_neg (gZ t) in
          let tMinus := newPrecomputed (gY t) (gX t) z in
          g_cmov t tMinus bNegative
      end
  end.

(** ** Histories of precomputations of one element *)

Inductive pcall : Set := PSingle | PDouble.
(** [PrecomputeForScalarMultiplication], [PrecomputeForDoubleScalarMultiplication],
    ed25519_encode.go:2447-2498. *)
Definition pstep (g : ge) (c : pcall) : res ge :=
  match c with PSingle => g_precompute_single g | PDouble => g_precompute_double g end.
Fixpoint prun (g : ge) (cs : list pcall) : res ge :=
  match cs with [] => Ok g | c :: r => do g' <- pstep g c; prun g' r end.

(** ** bouncycastle_crypto.go *)

(** [BufferedBlockCipher], bouncycastle_crypto.go:8-12; the block and the padding are objects
    without state ([CBCBlockCipher], [AESEngine], [PKCS7Padding], bouncycastle_crypto.go:62-81), as are
    the parameters that nobody reads ([KeyParameter], [CipherParameters], bouncycastle_crypto.go:44-60). *)
Record buffered : Set := Buffered { b_output : bytes }.
(** [NewPaddedBufferedBlockCipher], bouncycastle_crypto.go:15-17; a nil slice is an empty one here. *)
Definition bc_new : buffered := Buffered [].
(** [copy(dst, src)] of Go: the new contents of dst and the number of bytes. *)
Definition go_copy (dst src : bytes) : bytes * Z :=
  let n := Nat.min (length dst) (length src) in
  (firstn n src ++ skipn n dst, Z.of_nat n).
(** the calls: [GetOutputSize] 20-22, [reset] 24-26, [init] 28-30, [doFinal] 32-34, [processBytes] 36-41.
    Each call gets the contents of the slices it is given and returns its result and what the
    slices contain afterwards. *)
Inductive bcall : Set :=
| BSize (length : Z)
| BReset
| BInit (forEncryption : bool) (key iv : bytes)
| BFinal (out : bytes) (outOff : Z)
| BProcess (input : bytes) (inOff length : Z) (out : bytes) (outOff : Z).
Inductive breply : Set :=
| RNone
| RInt (n : Z)                              (* the result; no slice of the caller changes *)
| RFinal (n : Z) (out : bytes)
| RProcess (n : Z) (input out : bytes).
Definition bcall_step (b : buffered) (c : bcall) : buffered * breply :=
  match c with
  | BSize _ => (b, RInt (Z.of_nat (List.length (b_output b))))
  | BReset => (Buffered [], RNone)
  | BInit _ _ _ => (b, RNone)
  | BFinal out _ => let '(o, n) := go_copy out (b_output b) in (b, RFinal n o)
  | BProcess input inOff len out _ =>
      if Z.of_nat (List.length out) <? w64 (len - inOff) then (b, RProcess (-1) input out)
      else let '(i, n) := go_copy input out in (b, RProcess n i out)
  end.
Fixpoint bc_run (b : buffered) (cs : list bcall) : list breply :=
  match cs with [] => [] | c :: r => let '(b', x) := bcall_step b c in x :: bc_run b' r end.
