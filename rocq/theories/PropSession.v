(** Property C54: histories of calls over random sources.  Statements; the proofs are in
    [SessionProofs] and [PropSessionLemmas].  [w] gives what every reader of the program will do;
    reader 0 is crypto/rand's, which engines without a seed share. *)
From Coq Require Import List ZArith Lia Bool.
From Verif Require Import GoBase ApiModel ApiSpec SessionModel SessionSpec SessionProofs PropSigLemmas PropCipherLemmas PropSessionLemmas.
Import ListNotations.

(** C54.  In every history of calls, over readers that may cut their bytes in any way and return
    errors at any point, each call has its own stretch of bytes (its own only: in each reader the
    stretches follow one another without gaps or overlaps and in the order of the calls), and its
    outcome is the function [meaning] of its arguments and of that stretch.  A call that returns a
    value has taken exactly [need] bytes; one that failed for the reader fewer; calls without random
    source none. *)
Theorem C54_history : forall H G E D cs w os w', run H G E D cs w = (os, w') ->
  exists ws, length ws = length cs /\ length os = length cs /\
  (forall n c b o, nth_error cs n = Some c -> nth_error ws n = Some b -> nth_error os n = Some o ->
     seen o = meaning H G E D c b /\ (source_of c = None -> b = []) /\ (length b <= need c)%nat /\
     (forall v, o = Value v -> length b = need c) /\ (forall e, o = ReadError e -> (length b < need c)%nat)) /\
  forall i, bytes_of (w i) = taken i cs ws ++ bytes_of (w' i).
Proof. exact history. Qed.
(** the stretch of a successful GenerateKeyPair is the private key, that of a successful Encrypt the
    beginning (salt and IV) of the ciphertext *)
Theorem C54_random_bytes_visible : forall H G E D c b v, length b = need c -> meaning H G E D c b = Ok v ->
  (forall e, c = CGenerate (Some e) -> exists kp, v = VPair kp /\ kp_priv kp = Some (new_private_key b)) /\
  (forall s k e m, c = CEncrypt s k e m -> exists out, v = VBytes out /\ firstn (length b) out = b).
Proof. exact meaning_random. Qed.
(** how readers without errors cut their bytes into chunks changes no outcome *)
Theorem C54_chunks_irrelevant : forall H G E D cs w1 w2,
  (forall i, quiet (w1 i) /\ quiet (w2 i) /\ bytes_of (w1 i) = bytes_of (w2 i)) ->
  fst (run H G E D cs w1) = fst (run H G E D cs w2) /\
  forall i, bytes_of (snd (run H G E D cs w1) i) = bytes_of (snd (run H G E D cs w2) i).
Proof. exact chunks_irrelevant. Qed.
(** the j-th of n generated key pairs is made from bytes 32j .. 32j+31 of the source *)
Theorem C54_many_key_pairs : forall H, hash_ok 64 H -> forall G E D e n w,
  quiet (w (reader_of e)) -> wf_bytes (bytes_of (w (reader_of e))) -> (32 * n <= length (bytes_of (w (reader_of e))))%nat ->
  fst (run H G E D (repeat (CGenerate (Some e)) n) w) =
    map (fun j => let seed := firstn 32 (skipn (32 * j) (bytes_of (w (reader_of e)))) in
                  Value (VPair (KeyPair (Some (new_private_key seed)) (public_key_of H seed)))) (seq 0 n).
Proof. exact generate_many. Qed.
(** a history with an error in the middle of a read, chunks, and the end of the source *)
Example C54_nonvacuous :
  fst (run H7 G7 Ex Ex [CGenerate (Some default_engine); CGenerate (Some default_engine); CGenerate (Some default_engine)] ex_w) =
  [ReadError (IoOther 3); Value (VPair (pair_of H7 (repeat 9 32)%Z)); ReadError IoUnexpectedEOF].
Proof. exact ex_history. Qed.

Print Assumptions C54_history.
Print Assumptions C54_random_bytes_visible.
Print Assumptions C54_chunks_irrelevant.
Print Assumptions C54_many_key_pairs.
