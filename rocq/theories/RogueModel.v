(** Calls that draw from any object with a Read method, also one that breaks the contract of io.Reader.

    [ReaderModel] takes readers that return at most as many bytes as they were asked for.  Nothing in Go enforces that: a
    Read can report any number, negative or too large, whatever it stored; it can store behind what it reports; it can
    panic; and it can keep the slices it was handed and store to them in a later Read.  All buffers it was handed up to now
    are therefore passed to it and taken from it.  Not modelled: a reader that stores to a buffer while no Read is
    running (from another goroutine). *)
From Coq Require Import List ZArith Bool.
From Verif Require Import GoBase ApiModel SessionModel ReaderModel.
Import ListNotations.
Open Scope Z_scope.

(** What a Read leaves: the buffer being filled, the buffer of an earlier ReadFull of the same call, the number it
    returns, its error, its state. *)
Record answer (S : Type) : Type := Answer { a_buf : bytes; a_old : bytes; a_num : Z; a_err : option rerr; a_state : S }.
Arguments Answer {S}. Arguments a_buf {S}. Arguments a_old {S}. Arguments a_num {S}. Arguments a_err {S}. Arguments a_state {S}.
(** Any reader: [gread s n buf old] is Read(buf[n:]) in state s; None: it panics. *)
Record rogue : Type := Rogue { gstate : Type; gread : gstate -> Z -> bytes -> bytes -> option (answer gstate) }.

Section AnyObject.
Variable R : rogue.
Variable H512 : list bytes -> bytes.
Variable H256 : bytes -> bytes.
Variable aesE : bytes -> bytes -> bytes.

(** How io.ReadAtLeast ends: with a panic, or with the sum of the reported numbers, the last error, the two buffers and
    the state of the reader. *)
Inductive reading : Type := Broken | Read (n : Z) (e : option rerr) (buf old : bytes) (s : gstate R).
(** the loop of io.ReadAtLeast (Go standard library): while the sum of the reported numbers, an int, is smaller than
    len(buf) and there was no error, Read(buf[n:]), which panics if n is negative *)
Fixpoint g_loop (fuel : nat) (s : gstate R) (n : Z) (buf old : bytes) : option reading :=
  if Z.of_nat (length buf) <=? n then Some (Read n None buf old s)
  else if n <? 0 then Some Broken
  else match fuel with
  | O => None
  | S f =>
    match gread R s n buf old with
    | None => Some Broken
    | Some (Answer buf' old' k e s') =>
      let n' := w64 (n + k) in
      match e with
      | Some _ => Some (Read n' e buf' old' s')
      | None => g_loop f s' n' buf' old'
      end
    end
  end.
(** the error io.ReadAtLeast returns when n is too small *)
Definition g_error (n : Z) (e : option rerr) : ioerr :=
  match e with Some (ROther k) => IoOther k | _ => if 0 <? n then IoUnexpectedEOF else IoEOF end.
(** [io.ReadFull(r, make([]byte, len))]: panic, error, or the two buffers *)
Inductive full : Type := FPanic | FErr (e : ioerr) (s : gstate R) | FOk (buf old : bytes) (s : gstate R).
Definition read_full_g (fuel : nat) (s : gstate R) (len : nat) (old : bytes) : option full :=
  match g_loop fuel s 0 (repeat 0 len) old with
  | None => None
  | Some Broken => Some FPanic
  | Some (Read n e buf old' s') => Some (if Z.of_nat len <=? n then FOk buf old' s' else FErr (g_error n e) s')
  end.
(** [GenerateKeyPair], ed25519_model.go:360-371; the state of the reader is None after a panic of ReadFull *)
Definition generate_g (fuel : nat) (s : gstate R) : option (outcome * option (gstate R)) :=
  match read_full_g fuel s 32 [] with
  | None => None
  | Some FPanic => Some (Panicked, None)
  | Some (FErr e s') => Some (ReadError e, Some s')
  | Some (FOk seed _ s') =>
      Some (of_res VPair (let privateKey := new_private_key seed in
                          do publicKey <- derive_public_key H512 privateKey;
                          new_key_pair H512 (Some privateKey) (Some publicKey)), Some s')
  end.
(** [Encrypt], ed25519_model.go:147-175: the salt is read when the key is derived (:156) and again at the end (:172) *)
Definition encrypt_g (fuel : nat) (bc : blockcipher) (s : gstate R) (input : bytes) : option (outcome * option (gstate R)) :=
  match read_full_g fuel s (bc_keylen bc) [] with
  | None => None
  | Some FPanic => Some (Panicked, None)
  | Some (FErr e s1) => Some (ReadError e, Some s1)
  | Some (FOk salt _ s1) =>
    match get_shared_key H512 H256 (bc_keylen bc) (kp_priv (bc_sender bc)) (kp_pub (bc_recipient bc)) salt with
    | Err e => Some (LibError e, Some s1)
    | Panic => Some (Panicked, Some s1)
    | Ok sharedKey =>
      match read_full_g fuel s1 16 salt with
      | None => None
      | Some FPanic => Some (Panicked, None)
      | Some (FErr e s2) => Some (ReadError e, Some s2)
      | Some (FOk ivData salt' s2) =>
          Some (of_res VBytes (do buf <- bc_encode aesE input sharedKey ivData; Ok ((salt' ++ ivData) ++ buf)), Some s2)
      end
    end
  end.
End AnyObject.
Arguments Broken {R}. Arguments Read {R}. Arguments FPanic {R}. Arguments FErr {R}. Arguments FOk {R}.
