(** [BufferedBlockCipher], bouncycastle_crypto.go.  The object has a key parameter, an IV, a padding and an AES engine as
    arguments of its constructors, none of which is ever used.  Slices and arrays are those of [AliasModel]. *)
From Coq Require Import List ZArith Bool Arith.
From Verif Require Import GoBase AliasModel.
Import ListNotations.
Open Scope Z_scope.

(** [copy(dst, src)] (Go specification, "Appending to and copying slices": the slices may overlap). *)
Definition go_copy (h : heap) (dst src : gslice) : heap * Z :=
  let n := Nat.min (gs_len dst) (gs_len src) in
  (wr h (gs_arr dst) (gs_off dst) (firstn n (rd h src)), Z.of_nat n).

(** bouncycastle_crypto.go:8-12 and :15-17 ([NewPaddedBufferedBlockCipher]): [output], nil (None) at first; block and padding are never looked at. *)
Record buffered : Set := Buffered { b_output : option gslice }.
Definition new_buffered : buffered := Buffered None.
(** [GetOutputSize], bouncycastle_crypto.go:20-22. *)
Definition get_output_size (b : buffered) (length : Z) : Z :=
  match b_output b with None => 0 | Some s => Z.of_nat (gs_len s) end.
(** [reset], bouncycastle_crypto.go:24-26. *)
Definition b_reset (b : buffered) : buffered := Buffered None.
(** [init], bouncycastle_crypto.go:28-30. *)
Definition b_init (b : buffered) (forEncryption : bool) : buffered := b.
(** [doFinal], bouncycastle_crypto.go:32-34. *)
Definition do_final (h : heap) (b : buffered) (out : gslice) (outOff : Z) : heap * Z :=
  match b_output b with None => (h, 0) | Some s => go_copy h out s end.
(** [processBytes], bouncycastle_crypto.go:36-41. *)
Definition process_bytes (h : heap) (input : gslice) (inOff length : Z) (out : gslice) (outOff : Z) : heap * Z :=
  if Z.of_nat (gs_len out) <? w64 (length - inOff) then (h, -1) else go_copy h input out.

(** Histories of calls on one new cipher. *)
Inductive bcall : Set :=
| BSize (length : Z)
| BReset
| BInit (forEncryption : bool)
| BFinal (out : gslice) (outOff : Z)
| BProcess (input : gslice) (inOff length : Z) (out : gslice) (outOff : Z).
(** one call: memory, cipher and the result, if it has one *)
Definition b_step (h : heap) (b : buffered) (c : bcall) : heap * buffered * option Z :=
  match c with
  | BSize n => (h, b, Some (get_output_size b n))
  | BReset => (h, b_reset b, None)
  | BInit e => (h, b_init b e, None)
  | BFinal out o => let (h', n) := do_final h b out o in (h', b, Some n)
  | BProcess i io l out oo => let (h', n) := process_bytes h i io l out oo in (h', b, Some n)
  end.
Fixpoint b_run (h : heap) (b : buffered) (cs : list bcall) : heap * buffered :=
  match cs with [] => (h, b) | c :: r => let '(h', b', _) := b_step h b c in b_run h' b' r end.
