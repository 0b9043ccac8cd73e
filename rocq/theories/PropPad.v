(** Property C61: Decrypt is a padding oracle.  Statements; the proofs are in [PadProofs] and
    [PropPadLemmas].  The attacker ([PadSpec]) sends ciphertexts and learns of each only whether Decrypt
    succeeds; it knows no key.  [H] is SHA3-512, [G] SHA3-256, [E] and [D] AES-256 (any functions of
    those shapes). *)
From Coq Require Import List ZArith Lia Bool.
From Verif Require Import GoBase FieldSpec ApiModel ApiSpec PropSigLemmas PropCipherLemmas PropSecLemmas PadSpec PropPadLemmas.
Import ListNotations.
Open Scope Z_scope.

(** C61.  From the answers to at most 272 questions per byte the attacker computes the message of every
    ciphertext that Decrypt accepts. *)
Theorem C61_reads_whatever_is_accepted : forall H, hash_ok 64 H -> forall G, hash1_ok 32 G -> forall E D, cipher_ok E D ->
  forall k1 k2, wf_bytes (pk_raw k1) -> wf_bytes (pk_raw k2) -> forall kp1 kp2,
  new_key_pair H (Some k1) None = Ok kp1 -> new_key_pair H (Some k2) None = Ok kp2 ->
  forall ct m, wf_bytes ct -> decrypt H G D (new_block_cipher kp1 kp2) ct = Ok m ->
  let oracle := fun c => accepted (decrypt H G D (new_block_cipher kp1 kp2) c) in
  answer oracle (read_message ct) = m /\ (questions oracle (read_message ct) <= 272 * length ct)%nat.
Proof. exact attack_reads. Qed.
(** in particular of every ciphertext made by Encrypt *)
Theorem C61_reads_encrypted_messages : forall H, hash_ok 64 H -> forall G, hash1_ok 32 G -> forall E D, cipher_ok E D ->
  forall k1 k2, wf_bytes (pk_raw k1) -> wf_bytes (pk_raw k2) -> forall kp1 kp2,
  new_key_pair H (Some k1) None = Ok kp1 -> new_key_pair H (Some k2) None = Ok kp2 ->
  forall src m out rest, wf_bytes src -> wf_bytes m -> encrypt H G E (new_block_cipher kp1 kp2) src m = Ok (out, rest) ->
  let oracle := fun c => accepted (decrypt H G D (new_block_cipher kp1 kp2) c) in
  answer oracle (read_message out) = m /\ (questions oracle (read_message out) <= 272 * length out)%nat.
Proof. exact attack_reads_encrypted. Qed.
(** and the attacker makes a ciphertext that decrypts to whatever message it likes, under whatever salt *)
Theorem C61_writes_messages : forall H, hash_ok 64 H -> forall G, hash1_ok 32 G -> forall E D, cipher_ok E D ->
  forall k1 k2, wf_bytes (pk_raw k1) -> wf_bytes (pk_raw k2) -> forall kp1 kp2,
  new_key_pair H (Some k1) None = Ok kp1 -> new_key_pair H (Some k2) None = Ok kp2 ->
  forall salt m, wf_bytes salt -> length salt = 32%nat -> wf_bytes m ->
  let oracle := fun c => accepted (decrypt H G D (new_block_cipher kp1 kp2) c) in
  let ct := answer oracle (write_message salt m) in
  decrypt H G D (new_block_cipher kp1 kp2) ct = Ok m /\ firstn 32 ct = salt /\
  (questions oracle (write_message salt m) <= 4352 * (length m / 16 + 1))%nat.
Proof. exact attack_writes. Qed.
Example C61_nonvacuous : hash_ok 64 H7 /\ hash1_ok 32 G7 /\ cipher_ok Ex Ex /\ exists k1 k2 kp1 kp2 src m out rest d,
  wf_bytes (pk_raw k1) /\ wf_bytes (pk_raw k2) /\ wf_bytes src /\ wf_bytes m /\
  new_key_pair H7 (Some k1) None = Ok kp1 /\ new_key_pair H7 (Some k2) None = Ok kp2 /\
  encrypt H7 G7 Ex (new_block_cipher kp1 kp2) src m = Ok (out, rest) /\
  block d /\ (32 <= length m)%nat /\ xor_bytes (firstn 16 m) d ++ skipn 16 m <> m /\ skipn 16 m <> m.
Proof. exact ex_open. Qed.

Print Assumptions C61_reads_whatever_is_accepted.
Print Assumptions C61_reads_encrypted_messages.
Print Assumptions C61_writes_messages.
Print Assumptions C61_nonvacuous.
