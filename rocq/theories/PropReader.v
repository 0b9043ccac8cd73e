(** Property C71: calls drawing from an arbitrary io.Reader.  Statements; the proofs are in [PropReaderLemmas].
    [delivers], [fails], [stalls] (ReaderSpec) say what the reader does; a call that is allowed [fuel] Reads returns
    Some (outcome, state of the reader afterwards) or, if these do not suffice, None. *)
From Coq Require Import List ZArith.
From Verif Require Import GoBase GroupSpec ApiModel ApiSpec SessionModel ReaderModel ReaderSpec PropReaderLemmas.
Import ListNotations.
Open Scope Z_scope.

(** GenerateKeyPair returns exactly if the reader delivers 32 bytes, the private key then, or fails before. *)
Theorem C71_generate : forall R, reader_ok R -> forall H, hash_ok 64 H -> forall s o s',
  (exists fuel, generate_any R H fuel s = Some (o, s')) <->
  (exists seed, delivers R s 32 seed s' /\ o = Value (VPair (KeyPair (Some (new_private_key seed)) (public_key_of H seed)))) \/
  (exists got e, fails R s 32 got e s' /\ o = ReadError (short_read got e)).
Proof. exact generate_outcome. Qed.
(** It does not return exactly if the reader neither delivers 32 bytes nor fails. *)
Theorem C71_generate_waits : forall R, reader_ok R -> forall H s,
  (forall fuel, generate_any R H fuel s = None) <-> stalls R s 32.
Proof. exact generate_waits. Qed.
(** Encrypt wants as many bytes as the recipient's public key has, agrees on a key, then wants 16 bytes; its result is that
    of Encrypt on these bytes. *)
Theorem C71_encrypt : forall R, reader_ok R -> forall H G E bc m s o s',
  let agreed salt := get_shared_key H G (bc_keylen bc) (kp_priv (bc_sender bc)) (kp_pub (bc_recipient bc)) salt in
  (exists fuel, encrypt_any R H G E fuel bc s m = Some (o, s')) <->
  (exists got e, fails R s (bc_keylen bc) got e s' /\ o = ReadError (short_read got e)) \/
  exists salt s1, delivers R s (bc_keylen bc) salt s1 /\
    ((exists e, agreed salt = Err e /\ s' = s1 /\ o = LibError e) \/
     (agreed salt = Panic /\ s' = s1 /\ o = Panicked) \/
     exists key, agreed salt = Ok key /\
       ((exists got e, fails R s1 16 got e s' /\ o = ReadError (short_read got e)) \/
        (exists iv, delivers R s1 16 iv s' /\ o = of_res VBytes (do r <- encrypt H G E bc (salt ++ iv) m; Ok (fst r))))).
Proof. exact encrypt_outcome. Qed.
Theorem C71_encrypt_waits : forall R, reader_ok R -> forall H G E bc m s,
  let agreed salt := get_shared_key H G (bc_keylen bc) (kp_priv (bc_sender bc)) (kp_pub (bc_recipient bc)) salt in
  (stalls R s (bc_keylen bc) -> forall fuel, encrypt_any R H G E fuel bc s m = None) /\
  ((forall fuel, encrypt_any R H G E fuel bc s m = None) -> (forall salt s1, ~ delivers R s (bc_keylen bc) salt s1) -> stalls R s (bc_keylen bc)) /\
  (forall salt s1, delivers R s (bc_keylen bc) salt s1 ->
     ((forall fuel, encrypt_any R H G E fuel bc s m = None) <-> exists key, agreed salt = Ok key /\ stalls R s1 16)).
Proof. exact encrypt_waits. Qed.
(** The outcome does not depend on how many Reads were allowed. *)
Theorem C71_one_outcome : forall R H G E bc m s f g,
  (forall x y, generate_any R H f s = Some x -> generate_any R H g s = Some y -> x = y) /\
  (forall x y, encrypt_any R H G E f bc s m = Some x -> encrypt_any R H G E g bc s m = Some y -> x = y).
Proof. exact (fun R H G E bc m s f g => conj (generate_once R H s f g) (encrypt_once R H G E bc m s f g)). Qed.
(** Readers that deliver the same 32 bytes, in whatever portions, give the same key pair. *)
Theorem C71_same_bytes : forall R1 R2, reader_ok R1 -> reader_ok R2 -> forall H, hash_ok 64 H -> forall s1 s2 seed s1' s2',
  delivers R1 s1 32 seed s1' -> delivers R2 s2 32 seed s2' ->
  exists o f1 f2, generate_any R1 H f1 s1 = Some (o, s1') /\ generate_any R2 H f2 s2 = Some (o, s2').
Proof. exact same_bytes. Qed.
(** If every Read gives a byte or an error, both calls return, after at most one Read per byte. *)
Theorem C71_progress : forall R H G E, (forall s n c s', (0 < n)%nat -> rread R s n = (c, None, s') -> c <> []) ->
  (forall s, generate_any R H 32 s <> None) /\
  (forall bc m s, encrypt_any R H G E (Nat.max (bc_keylen bc) 16) bc s m <> None).
Proof. exact progress. Qed.
(** On the finite readers of C54 these are the calls of C54. *)
Theorem C71_finite_readers : forall H G E r bc m,
  generate_any list_reader H (S (length r)) r = Some (generate_r H r) /\
  encrypt_any list_reader H G E (S (length r)) bc r m = Some (encrypt_r H G E bc r m).
Proof. exact list_readers. Qed.
Example C71_nonvacuous : reader_ok drip /\ reader_ok silent /\ stalls silent tt 32 /\
  delivers drip O 32 (map (fun k => Z.of_nat (2 * k + 1)) (seq 0 32)) 64%nat.
Proof. exact ex_readers. Qed.

Print Assumptions C71_generate.
Print Assumptions C71_generate_waits.
Print Assumptions C71_encrypt.
Print Assumptions C71_encrypt_waits.
Print Assumptions C71_one_outcome.
Print Assumptions C71_same_bytes.
Print Assumptions C71_progress.
Print Assumptions C71_finite_readers.
