(** Model with memory of the signature constructors, [Bytes] and [MakeSignatureCanonical]: a Go slice is
    a window (with a capacity) on an array, so two slices can show the same bytes, and [append] writes
    in place when the capacity allows it (Go specification, "Appending to and copying slices").
    Values are related with the memory-less model [ApiModel]. *)
From Coq Require Import List ZArith Lia Bool Arith.
From Verif Require Import GoBase FieldModel ScalarModel GroupModel ApiModel.
Import ListNotations.
Open Scope nat_scope.

(** All arrays that exist, by address. *)
Definition heap := list bytes.
Record gslice : Set := GS { gs_arr : nat; gs_off : nat; gs_len : nat; gs_cap : nat }.

Definition array (h : heap) (a : nat) : bytes := nth a h [].
(** The bytes a slice shows. *)
Definition rd (h : heap) (s : gslice) : bytes := firstn (gs_len s) (skipn (gs_off s) (array h (gs_arr s))).

(** What every Go slice value satisfies. *)
Definition wf_slice (h : heap) (s : gslice) : Prop :=
  gs_arr s < length h /\ gs_len s <= gs_cap s /\ gs_off s + gs_cap s <= length (array h (gs_arr s)).

(** A new array with the content [d] and [x] bytes of spare capacity: [make] and [copy]. *)
Definition alloc (h : heap) (d : bytes) (x : nat) : heap * gslice :=
  (h ++ [d ++ repeat 0%Z x], GS (length h) 0 (length d) (length d + x)).

(** [d] written from position [i] of an array; of the array at address [a]. *)
Definition overwrite (l : bytes) (i : nat) (d : bytes) : bytes := firstn i l ++ d ++ skipn (i + length d) l.
Definition wr (h : heap) (a i : nat) (d : bytes) : heap :=
  firstn a h ++ [overwrite (array h a) i d] ++ skipn (S a) h.

(** [append(s, t...)]: in place if the capacity suffices, otherwise a new array with some unspecified
    spare capacity [x]. *)
Definition go_append (x : nat) (h : heap) (s t : gslice) : heap * gslice :=
  let d := rd h t in
  if gs_len s + length d <=? gs_cap s
  then (wr h (gs_arr s) (gs_off s + gs_len s) d, GS (gs_arr s) (gs_off s) (gs_len s + length d) (gs_cap s))
  else alloc h (rd h s ++ d) x.

(** [s[lo:hi]]; [s[lo:]]: panics outside of the capacity. *)
Definition reslice (s : gslice) (lo hi : nat) : res gslice :=
  if (lo <=? hi) && (hi <=? gs_cap s) then Ok (GS (gs_arr s) (gs_off s + lo) (hi - lo) (gs_cap s - lo)) else Panic.

(** [Signature], signature.go:17-20. *)
Record hsig : Set := HSig { hR : gslice; hS : gslice }.
(** its bytes at a moment *)
Definition sig_val (h : heap) (g : hsig) : signature := Sig (rd h (hR g)) (rd h (hS g)).

(** [NewSignature], signature.go:29-35: keeps the two slices. *)
Definition new_signature_h (r s : gslice) : res hsig :=
  if negb (gs_len r =? 32) || negb (gs_len s =? 32) then Err ErrNewSignature else Ok (HSig r s).
(** [NewSignatureFromBytes], signature.go:52-57. *)
Definition new_signature_from_bytes_h (b : gslice) : res hsig :=
  if gs_len b <? 64 then Err ErrNewSignatureFromBytes
  else do r <- reslice b 0 32; do s <- reslice b 32 (gs_len b); new_signature_h r s.
(** [NewSignatureFromBigInt], signature.go:38-50: [BigIntToByteArray] makes new arrays (contract). *)
Definition new_signature_from_bigint_h (h : heap) (r s : option Z) : res (heap * hsig) :=
  do g <- new_signature_from_bigint r s;
  let (h1, a) := alloc h (sR g) 0 in
  let (h2, b) := alloc h1 (sS g) 0 in
  Ok (h2, HSig a b).
(** [Bytes], signature.go:72-75. *)
Definition bytes_h (x : nat) (h : heap) (g : hsig) : heap * gslice := go_append x h (hR g) (hS g).
(** [String], signature.go:77-80: encodes the result of [Bytes]. *)
Definition string_h (x : nat) (h : heap) (g : hsig) : heap * bytes :=
  let (h', s) := bytes_h x h g in (h', hex_encode (rd h' s)).

(** [MakeSignatureCanonical], ed25519_model.go:332-342: the new signature has the same slice [R], and
    a new 32-byte array for S (modQ makes it, ed25519_encode.go:1324). *)
Definition make_signature_canonical_h (h : heap) (g : hsig) : res (heap * hsig) :=
  let sign := firstn 64 (rd h (hS g) ++ all_zero 64) in
  do e <- new_efe sign;
  do sModQ <- sc_modQ e;
  let (h1, s) := alloc h sModQ 0 in
  do c <- new_signature_h (hR g) s;
  Ok (h1, c).

Section Ops.
Variable H512 : list bytes -> bytes.

(** [Sign], ed25519_model.go:206-266: R is the array made by [Encode] (ed25519_encode.go:859), S the
    one made by [multiplyAndAddModQ] (ed25519_encode.go:1762); both without spare capacity. *)
Definition sign_h (h : heap) (kp : keypair) (mess : gslice) : res (heap * hsig) :=
  do g <- sign H512 kp (rd h mess);
  let (h1, a) := alloc h (sR g) 0 in
  let (h2, b) := alloc h1 (sS g) 0 in
  Ok (h2, HSig a b).
(** [Verify], ed25519_model.go:270-322, reads only. *)
Definition verify_h (h : heap) (kp : keypair) (mess : gslice) (g : hsig) : res bool :=
  verify H512 kp (rd h mess) (sig_val h g).

(** A program using the API: the slices and signatures it has got so far. *)
Record world : Set := World { w_heap : heap; w_slices : list gslice; w_sigs : list hsig }.

Inductive op : Set :=
| OMake (d : bytes) (x : nat)              (* the program makes a byte slice *)
| OSlice (i lo hi : nat)                   (* ... slices one *)
| OAppend (i j x : nat)                    (* ... appends one to another *)
| ONewSignature (i j : nat)
| OFromBytes (i : nat)
| OFromBigInt (r s : option Z)
| OSign (kp : keypair) (i : nat)
| OVerify (kp : keypair) (i g : nat)
| OBytes (g x : nat)
| OString (g x : nat)
| OCanonical (g : nat).

Definition add_sig (w : world) (h : heap) (g : hsig) : world := World h (w_slices w) (w_sigs w ++ [g]).
Definition add_slice (w : world) (h : heap) (s : gslice) : world := World h (w_slices w ++ [s]) (w_sigs w).
(** A call that returned an error gives no new value; [None]: the program is wrong (no such value) or
    the call panics. *)
Definition got_sig (w : world) (r : res (heap * hsig)) : option world :=
  match r with Ok (h, g) => Some (add_sig w h g) | Err _ => Some w | Panic => None end.

Definition step (w : world) (o : op) : option world :=
  let h := w_heap w in
  let sl := nth_error (w_slices w) in
  let sg := nth_error (w_sigs w) in
  match o with
  | OMake d x => let (h', s) := alloc h d x in Some (add_slice w h' s)
  | OSlice i lo hi =>
      match sl i with
      | Some s => match reslice s lo hi with Ok t => Some (add_slice w h t) | _ => None end
      | None => None end
  | OAppend i j x =>
      match sl i, sl j with
      | Some s, Some t => let (h', u) := go_append x h s t in Some (add_slice w h' u)
      | _, _ => None end
  | ONewSignature i j =>
      match sl i, sl j with
      | Some r, Some s => got_sig w (do g <- new_signature_h r s; Ok (h, g))
      | _, _ => None end
  | OFromBytes i =>
      match sl i with
      | Some b => got_sig w (do g <- new_signature_from_bytes_h b; Ok (h, g))
      | None => None end
  | OFromBigInt r s => got_sig w (new_signature_from_bigint_h h r s)
  | OSign kp i =>
      match sl i with Some m => got_sig w (sign_h h kp m) | None => None end
  | OVerify kp i g =>
      match sl i, sg g with
      | Some m, Some v => match verify_h h kp m v with Ok _ => Some w | _ => None end
      | _, _ => None end
  | OBytes g x =>
      match sg g with
      | Some v => let (h', s) := bytes_h x h v in Some (add_slice w h' s)
      | None => None end
  | OString g x =>
      match sg g with
      | Some v => Some (World (fst (string_h x h v)) (w_slices w) (w_sigs w))
      | None => None end
  | OCanonical g =>
      match sg g with Some v => got_sig w (make_signature_canonical_h h v) | None => None end
  end.

Fixpoint run (w : world) (os : list op) : option world :=
  match os with
  | [] => Some w
  | o :: r => match step w o with Some w' => run w' r | None => None end
  end.
Definition empty_world : world := World [] [] [].
End Ops.
