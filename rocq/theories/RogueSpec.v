(** What an object with a Read method does when a buffer is to be filled by it: no reference to the loop of ReadFull. *)
From Coq Require Import List ZArith.
From Verif Require Import GoBase ApiModel SessionModel ReaderModel RogueModel.
Import ListNotations.
Open Scope Z_scope.

(** All that Go's memory safety and types promise: buffers keep their lengths and hold bytes, the number is an int. *)
Definition rogue_ok (R : rogue) : Prop := forall s n buf old a, gread R s n buf old = Some a -> wf_bytes buf -> wf_bytes old ->
  length (a_buf a) = length buf /\ length (a_old a) = length old /\ wf_bytes (a_buf a) /\ wf_bytes (a_old a) /\ - 2 ^ 63 <= a_num a < 2 ^ 63.
(** The reader does not store to the buffers of earlier calls of ReadFull. *)
Definition keeps (R : rogue) : Prop := forall s n buf old a, gread R s n buf old = Some a -> a_old a = old.

(** In state s, with n bytes claimed up to now: by further Reads the reader claims to have filled buf; the buffers then
    hold buf' and old'. *)
Inductive claims (R : rogue) : gstate R -> Z -> bytes -> bytes -> bytes -> bytes -> gstate R -> Prop :=
| CEnough : forall s n buf old, Z.of_nat (length buf) <= n -> claims R s n buf old buf old s
| CMore : forall s n buf old buf1 old1 k s1 buf' old' s', 0 <= n < Z.of_nat (length buf) ->
    gread R s n buf old = Some (Answer buf1 old1 k None s1) -> claims R s1 (w64 (n + k)) buf1 old1 buf' old' s' -> claims R s n buf old buf' old' s'
| CLast : forall s n buf old buf1 old1 k e s1, 0 <= n < Z.of_nat (length buf) ->
    gread R s n buf old = Some (Answer buf1 old1 k (Some e) s1) -> Z.of_nat (length buf) <= w64 (n + k) -> claims R s n buf old buf1 old1 s1.
(** It reports error e having claimed n' bytes, too few. *)
Inductive gives_up (R : rogue) : gstate R -> Z -> bytes -> bytes -> Z -> rerr -> gstate R -> Prop :=
| GMore : forall s n buf old buf1 old1 k s1 n' e s', 0 <= n < Z.of_nat (length buf) ->
    gread R s n buf old = Some (Answer buf1 old1 k None s1) -> gives_up R s1 (w64 (n + k)) buf1 old1 n' e s' -> gives_up R s n buf old n' e s'
| GLast : forall s n buf old buf1 old1 k e s1, 0 <= n < Z.of_nat (length buf) ->
    gread R s n buf old = Some (Answer buf1 old1 k (Some e) s1) -> w64 (n + k) < Z.of_nat (length buf) -> gives_up R s n buf old (w64 (n + k)) e s1.
(** It panics, or claims less than nothing without an error. *)
Inductive breaks (R : rogue) : gstate R -> Z -> bytes -> bytes -> Prop :=
| BNegative : forall s n buf old, n < 0 -> breaks R s n buf old
| BPanic : forall s n buf old, 0 <= n < Z.of_nat (length buf) -> gread R s n buf old = None -> breaks R s n buf old
| BMore : forall s n buf old buf1 old1 k s1, 0 <= n < Z.of_nat (length buf) ->
    gread R s n buf old = Some (Answer buf1 old1 k None s1) -> breaks R s1 (w64 (n + k)) buf1 old1 -> breaks R s n buf old.
Definition zeros (n : nat) : bytes := repeat 0 n.
(** The error of ReadFull for a reader that gave up. *)
Definition given_up (n : Z) (e : rerr) : ioerr :=
  match e with ROther k => IoOther k | REOF => if Z.ltb 0 n then IoUnexpectedEOF else IoEOF end.

(** A reader that keeps the contract, as such an object: it stores the bytes it returns at the beginning of buf[n:]. *)
Definition store (buf : bytes) (n : nat) (c : bytes) : bytes := firstn n buf ++ c ++ skipn (n + length c) buf.
Definition honest (R : ioreader) : rogue := Rogue (rstate R) (fun s n buf old =>
  let '(c, e, s') := rread R s (length buf - Z.to_nat n) in
  Some (Answer (store buf (Z.to_nat n) c) old (Z.of_nat (length c)) e s')).
(** A reader that stores nothing and says k each time. *)
Definition claiming (k : Z) : rogue := Rogue unit (fun s _ buf old => Some (Answer buf old k None s)).
