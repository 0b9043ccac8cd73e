(** What an io.Reader does when n bytes are wanted from it, independently of any loop.

    A Read of at most n bytes returns some bytes, perhaps an error, and leaves the reader in a new state. *)
From Coq Require Import List ZArith.
From Verif Require Import GoBase SessionModel ReaderModel.
Import ListNotations.

(** The contract of io.Reader: at most n bytes, and they are bytes. *)
Definition reader_ok (R : ioreader) : Prop := forall s n c e s', rread R s n = (c, e, s') -> (length c <= n)%nat /\ wf_bytes c.

(** The reader delivers the n bytes [bs] wanted, each Read asking for what is missing; an error may come with the
    last of them. *)
Inductive delivers (R : ioreader) : rstate R -> nat -> bytes -> rstate R -> Prop :=
| DNothing : forall s, delivers R s 0 [] s
| DPart : forall s n c s' c' s'', (0 < n)%nat -> rread R s n = (c, None, s') -> delivers R s' (n - length c) c' s'' -> delivers R s n (c ++ c') s''
| DLast : forall s n c e s', (0 < n)%nat -> rread R s n = (c, Some e, s') -> length c = n -> delivers R s n c s'.
(** It fails with error [e] having delivered [bs] only. *)
Inductive fails (R : ioreader) : rstate R -> nat -> bytes -> rerr -> rstate R -> Prop :=
| FHere : forall s n c e s', (length c < n)%nat -> rread R s n = (c, Some e, s') -> fails R s n c e s'
| FLater : forall s n c s' c' e s'', rread R s n = (c, None, s') -> fails R s' (n - length c) c' e s'' -> fails R s n (c ++ c') e s''.
(** It never delivers enough and never fails. *)
CoInductive stalls (R : ioreader) : rstate R -> nat -> Prop :=
| Stall : forall s n c s', (length c < n)%nat -> rread R s n = (c, None, s') -> stalls R s' (n - length c) -> stalls R s n.
(** The error io.ReadFull makes of a failure. *)
Definition short_read (got : bytes) (e : rerr) : ioerr :=
  match e, got with ROther k, _ => IoOther k | REOF, [] => IoEOF | REOF, _ => IoUnexpectedEOF end.
