(** Property C83: drawing random bytes from an object that breaks the contract of io.Reader.  Statements; the proofs are
    in [PropRogueLemmas].  [claims], [gives_up], [breaks] (RogueSpec) say what the object does while a buffer is filled by it;
    a call that is allowed [fuel] Reads returns Some (outcome, state of the reader, None after a panic of ReadFull) or, if
    these do not suffice, None. *)
From Coq Require Import List ZArith.
From Verif Require Import GoBase GroupSpec ApiModel ApiSpec SessionModel ReaderModel ReaderSpec RogueModel RogueSpec PropRogueLemmas.
Import ListNotations.
Open Scope Z_scope.

(** GenerateKeyPair returns exactly if the object claims to have filled 32 bytes, then with what is in the buffer as the
    private key, whoever wrote it; or reports an error before; and it panics exactly if the object panics or claims less
    than nothing. *)
Theorem C83_generate : forall R, rogue_ok R -> forall H, hash_ok 64 H -> forall s o,
  (exists fuel s', generate_g R H fuel s = Some (o, s')) <->
  (exists seed old s', claims R s 0 (zeros 32) [] seed old s' /\ o = Value (VPair (KeyPair (Some (new_private_key seed)) (public_key_of H seed)))) \/
  (exists n e s', gives_up R s 0 (zeros 32) [] n e s' /\ o = ReadError (given_up n e)) \/
  (breaks R s 0 (zeros 32) [] /\ o = Panicked).
Proof. exact g_generate_outcome. Qed.
(** Whatever the object does: a key pair that is returned has a private key of 32 bytes and the public key belonging to it. *)
Theorem C83_pair_fits : forall R, rogue_ok R -> forall H, hash_ok 64 H -> forall fuel s v s', generate_g R H fuel s = Some (Value v, s') ->
  exists seed, length seed = 32%nat /\ wf_bytes seed /\ v = VPair (KeyPair (Some (new_private_key seed)) (public_key_of H seed)).
Proof. exact generate_fits. Qed.
(** The messages Encrypt can return: key agreement and encryption are those of Encrypt with the salt and iv the object
    claims to have delivered; the salt in front is what the salt's buffer holds at the end. *)
Theorem C83_encrypt : forall R, rogue_ok R -> forall H G E bc m s out,
  (exists fuel s', encrypt_g R H G E fuel bc s m = Some (Value (VBytes out), s')) <->
  exists salt o1 s1 salt' iv s2 c, claims R s 0 (zeros (bc_keylen bc)) [] salt o1 s1 /\ claims R s1 0 (zeros 16) salt iv salt' s2 /\
    encrypt H G E bc (salt ++ iv) m = Ok (salt ++ iv ++ c, []) /\ out = salt' ++ iv ++ c.
Proof. exact encrypt_value. Qed.
(** So the recipient can read every message that is returned, if the object leaves the salt alone after delivering it. *)
Theorem C83_recipient_reads : forall R, rogue_ok R -> forall H G E, hash_ok 64 H -> keeps R -> hash1_ok 32 G -> forall D, cipher_ok E D ->
  forall k1 k2 kp1 kp2 m fuel s v s', wf_bytes (pk_raw k1) -> wf_bytes (pk_raw k2) -> wf_bytes m ->
  new_key_pair H (Some k1) None = Ok kp1 -> new_key_pair H (Some k2) None = Ok kp2 ->
  encrypt_g R H G E fuel (new_block_cipher kp1 kp2) s m = Some (Value v, s') ->
  exists out, v = VBytes out /\ decrypt H G D (new_block_cipher kp1 kp2) out = Ok m.
Proof. exact recipient_reads. Qed.
(** Otherwise he may not be able to. *)
Theorem C83_reads_always_refuted : ~ (forall R, rogue_ok R -> forall H, hash_ok 64 H -> forall G, hash1_ok 32 G -> forall E D, cipher_ok E D ->
  forall k1 k2 kp1 kp2 m fuel s out s', wf_bytes (pk_raw k1) -> wf_bytes (pk_raw k2) -> wf_bytes m ->
  new_key_pair H (Some k1) None = Ok kp1 -> new_key_pair H (Some k2) None = Ok kp2 ->
  encrypt_g R H G E fuel (new_block_cipher kp1 kp2) s m = Some (Value (VBytes out), s') ->
  decrypt H G D (new_block_cipher kp1 kp2) out = Ok m).
Proof. exact salt_changed. Qed.
(** An object that stores nothing and says k each time: the key pair of 32 zero bytes if k > 0, no return if k = 0, a panic
    if k < 0. *)
Theorem C83_stores_nothing : forall H, hash_ok 64 H -> forall k, - 2 ^ 63 <= k < 2 ^ 63 ->
  (0 < k -> exists fuel, generate_g (claiming k) H fuel tt = Some (Value (VPair (KeyPair (Some (new_private_key (zeros 32))) (public_key_of H (zeros 32)))), Some tt)) /\
  (k = 0 -> forall fuel, generate_g (claiming k) H fuel tt = None) /\
  (k < 0 -> generate_g (claiming k) H 1 tt = Some (Panicked, None)).
Proof. exact stores_nothing. Qed.
(** With readers that keep the contract these are the calls of C71. *)
Theorem C83_honest_readers : forall R, reader_ok R -> forall H G E fuel bc m s, Z.of_nat (bc_keylen bc) < 2 ^ 63 ->
  generate_g (honest R) H fuel s = option_map (fun r => (fst r, Some (snd r))) (generate_any R H fuel s) /\
  encrypt_g (honest R) H G E fuel bc s m = option_map (fun r => (fst r, Some (snd r))) (encrypt_any R H G E fuel bc s m).
Proof. exact honest_same. Qed.
Example C83_nonvacuous : rogue_ok (claiming 5) /\ keeps (claiming 5) /\ claims (claiming 5) tt 0 (zeros 32) [] (zeros 32) [] tt /\
  rogue_ok overflowing /\ breaks overflowing false 0 (zeros 32) [] /\ rogue_ok keeper /\ ~ keeps keeper.
Proof. exact ex_rogue. Qed.

Print Assumptions C83_generate.
Print Assumptions C83_pair_fits.
Print Assumptions C83_encrypt.
Print Assumptions C83_recipient_reads.
Print Assumptions C83_reads_always_refuted.
Print Assumptions C83_stores_nothing.
Print Assumptions C83_honest_readers.
