(** Calls that draw from an arbitrary io.Reader.

    [SessionModel] takes readers whose behaviour is a finite list.  Here a reader is any object with a state and a
    Read method, as an attacker or a hardware source may be: it can answer differently to every length, remember
    what it was asked, and return (0, nil) for ever.  [io.ReadFull] then need not return, so calls are given the
    number of Reads they may do at most and yield None when these are used up. *)
From Coq Require Import List ZArith.
From Verif Require Import GoBase ApiModel SessionModel.
Import ListNotations.
Open Scope Z_scope.

(** Any io.Reader: a type of states and what [Read(buf)] with len(buf) = n does in a state. *)
Record ioreader : Type := Reader { rstate : Type; rread : rstate -> nat -> bytes * option rerr * rstate }.

Section AnyReader.
Variable R : ioreader.
Variable H512 : list bytes -> bytes.
Variable H256 : bytes -> bytes.
Variable aesE : bytes -> bytes -> bytes.

(** the loop of io.ReadAtLeast (Go standard library): while bytes are missing and there was no error, Read into the
    rest of the buffer *)
Fixpoint loop_any (fuel : nat) (s : rstate R) (n : nat) : option (bytes * option rerr * rstate R) :=
  match n with
  | O => Some ([], None, s)
  | _ =>
    match fuel with
    | O => None
    | S f =>
      match rread R s n with
      | (c, Some e, s') => Some (c, Some e, s')
      | (c, None, s') =>
        match loop_any f s' (n - length c) with
        | Some (c', e', s'') => Some (c ++ c', e', s'')
        | None => None
        end
      end
    end
  end.
(** [io.ReadFull(r, make([]byte, n))] *)
Definition read_full_any (fuel : nat) (s : rstate R) (n : nat) : option ((bytes + ioerr) * rstate R) :=
  match loop_any fuel s n with
  | None => None
  | Some (c, e, s') => Some (if Nat.leb n (length c) then inl c else inr (io_error c e), s')
  end.
(** [GenerateKeyPair], ed25519_model.go:360-371. *)
Definition generate_any (fuel : nat) (s : rstate R) : option (outcome * rstate R) :=
  match read_full_any fuel s 32 with
  | None => None
  | Some (inr e, s') => Some (ReadError e, s')
  | Some (inl seed, s') =>
      Some (of_res VPair (let privateKey := new_private_key seed in
                          do publicKey <- derive_public_key H512 privateKey;
                          new_key_pair H512 (Some privateKey) (Some publicKey)), s')
  end.
(** [Encrypt], ed25519_model.go:147-175. *)
Definition encrypt_any (fuel : nat) (bc : blockcipher) (s : rstate R) (input : bytes) : option (outcome * rstate R) :=
  match read_full_any fuel s (bc_keylen bc) with
  | None => None
  | Some (inr e, s1) => Some (ReadError e, s1)
  | Some (inl salt, s1) =>
    match get_shared_key H512 H256 (bc_keylen bc) (kp_priv (bc_sender bc)) (kp_pub (bc_recipient bc)) salt with
    | Err e => Some (LibError e, s1)
    | Panic => Some (Panicked, s1)
    | Ok sharedKey =>
      match read_full_any fuel s1 16 with
      | None => None
      | Some (inr e, s2) => Some (ReadError e, s2)
      | Some (inl ivData, s2) =>
          Some (of_res VBytes (do buf <- bc_encode aesE input sharedKey ivData; Ok ((salt ++ ivData) ++ buf)), s2)
      end
    end
  end.
End AnyReader.
(** the readers of [SessionModel] *)
Definition list_reader : ioreader := Reader reader read1.
