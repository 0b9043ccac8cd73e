(** Properties C50 - C53: what the cipher, the key agreement and the signatures do not protect
    against, and the derived public keys.  Statements; the proofs are in [Torsion] and
    [PropSecLemmas].  [H] is SHA3-512, [G] SHA3-256, [E] and [D] AES-256 (any functions of those
    shapes); [src] is what the random source will deliver. *)
From Coq Require Import List ZArith Lia Bool.
From Verif Require Import GoBase FieldModel FieldSpec Fp Curve BasePoint GroupModel GroupSpec
  ApiModel ApiSpec PropSigLemmas CipherProofs PropCipherLemmas Torsion PropSecLemmas.
Import ListNotations.
Open Scope Z_scope.

(** C50.  Ciphertexts are not authenticated.  Whoever flips bits of bytes 32..47 of a ciphertext flips
    the same bits of the first 16 bytes of the decrypted message, without any key. *)
Theorem C50_flipped_bits_accepted : forall H, hash_ok 64 H -> forall G, hash1_ok 32 G -> forall E D, cipher_ok E D ->
  forall k1 k2 kp1 kp2 src m out rest d, wf_bytes (pk_raw k1) -> wf_bytes (pk_raw k2) -> wf_bytes src -> wf_bytes m ->
  new_key_pair H (Some k1) None = Ok kp1 -> new_key_pair H (Some k2) None = Ok kp2 ->
  encrypt H G E (new_block_cipher kp1 kp2) src m = Ok (out, rest) ->
  block d -> (16 <= length m)%nat ->
  decrypt H G D (new_block_cipher kp1 kp2) (firstn 32 out ++ xor_bytes (firstn 16 (skipn 32 out)) d ++ skipn 48 out) =
    Ok (xor_bytes (firstn 16 m) d ++ skipn 16 m).
Proof. exact flipped. Qed.
(** whoever removes the 16-byte blocks after the salt one by one removes the message's leading blocks *)
Theorem C50_dropped_blocks_accepted : forall H, hash_ok 64 H -> forall G, hash1_ok 32 G -> forall E D, cipher_ok E D ->
  forall k1 k2 kp1 kp2 src m out rest n, wf_bytes (pk_raw k1) -> wf_bytes (pk_raw k2) -> wf_bytes src -> wf_bytes m ->
  new_key_pair H (Some k1) None = Ok kp1 -> new_key_pair H (Some k2) None = Ok kp2 ->
  encrypt H G E (new_block_cipher kp1 kp2) src m = Ok (out, rest) ->
  (16 * n <= length m)%nat ->
  decrypt H G D (new_block_cipher kp1 kp2) (firstn 32 out ++ skipn (32 + 16 * n) out) = Ok (skipn (16 * n) m).
Proof. exact dropped. Qed.
(** a ciphertext does not show which of the two parties made it: with the same random bytes both make
    the same one *)
Theorem C50_sender_not_authenticated : forall H, hash_ok 64 H -> forall G, hash1_ok 32 G -> forall E D, cipher_ok E D ->
  forall k1 k2 kp1 kp2 src m out rest, wf_bytes (pk_raw k1) -> wf_bytes (pk_raw k2) -> wf_bytes src -> wf_bytes m ->
  new_key_pair H (Some k1) None = Ok kp1 -> new_key_pair H (Some k2) None = Ok kp2 ->
  encrypt H G E (new_block_cipher kp1 kp2) src m = Ok (out, rest) ->
  encrypt H G E (new_block_cipher kp2 kp1) src m = Ok (out, rest).
Proof. exact swapped_encrypt. Qed.
Example C50_nonvacuous : hash_ok 64 H7 /\ hash1_ok 32 G7 /\ cipher_ok Ex Ex /\ exists k1 k2 kp1 kp2 src m out rest d,
  wf_bytes (pk_raw k1) /\ wf_bytes (pk_raw k2) /\ wf_bytes src /\ wf_bytes m /\
  new_key_pair H7 (Some k1) None = Ok kp1 /\ new_key_pair H7 (Some k2) None = Ok kp2 /\
  encrypt H7 G7 Ex (new_block_cipher kp1 kp2) src m = Ok (out, rest) /\
  block d /\ (32 <= length m)%nat /\ xor_bytes (firstn 16 m) d ++ skipn 16 m <> m /\ skipn 16 m <> m.
Proof. exact ex_open. Qed.

(** C51.  The public keys of order dividing 8: those, and only those, whose low 255 bits are one of
    seven values (bit 255 is free: 14 encodings). *)
Theorem C51_small_order_keys : forall pub, wf_bytes pub -> length pub = 32%nat ->
  ((exists P, denotes pub P /\ zmul 8 P = pzero) <->
   In (le_val pub mod 2 ^ 255)
     [0; 1; 2 ^ 255 - 20; 2 ^ 255 - 19; 2 ^ 255 - 18;
      2707385501144840649318225287225658788936804267575313519463743609750303402022;
      2 ^ 255 - 19 - 2707385501144840649318225287225658788936804267575313519463743609750303402022]).
Proof. exact small_order_list. Qed.
(** with such a key the shared key does not depend on the private key: it is a public function of the salt *)
Theorem C51_shared_key_public : forall H, hash_ok 64 H -> forall G k pub salt P,
  wf_bytes (pk_raw k) -> wf_bytes pub -> length pub = 32%nat -> length salt = 32%nat ->
  denotes pub P -> zmul 8 P = pzero ->
  get_shared_key H G 32 (Some k) pub salt = Ok (G (xor_bytes (1 :: all_zero 31) salt)).
Proof. exact small_shared_point. Qed.
(** so what is sent to such a key can be read with any private key *)
Theorem C51_anyone_decrypts : forall H, hash_ok 64 H -> forall G, hash1_ok 32 G -> forall E D, cipher_ok E D ->
  forall k1 kp1 k3 spub rpub src m out rest P Q,
  wf_bytes (pk_raw k1) -> wf_bytes (pk_raw k3) -> wf_bytes src -> wf_bytes m ->
  kp_priv kp1 = Some k1 -> wf_bytes rpub -> length rpub = 32%nat -> wf_bytes spub -> length spub = 32%nat ->
  denotes rpub P -> zmul 8 P = pzero -> denotes spub Q -> zmul 8 Q = pzero ->
  encrypt H G E (new_block_cipher kp1 (KeyPair None rpub)) src m = Ok (out, rest) ->
  decrypt H G D (new_block_cipher (KeyPair None spub) (KeyPair (Some k3) rpub)) out = Ok m.
Proof. exact small_anyone_point. Qed.
(** adding a point of order dividing 8 to a public key changes no shared key *)
Theorem C51_cofactor_ignored : forall H, hash_ok 64 H -> forall G k pub1 pub2 P T salt,
  wf_bytes (pk_raw k) -> wf_bytes pub1 -> wf_bytes pub2 -> length pub1 = 32%nat -> length pub2 = 32%nat ->
  length salt = 32%nat -> denotes pub1 P -> denotes pub2 (padd P T) -> zmul 8 T = pzero ->
  get_shared_key H G 32 (Some k) pub2 salt = get_shared_key H G 32 (Some k) pub1 salt.
Proof. exact torsion_shared. Qed.
Example C51_nonvacuous : exists pub1 pub2 P T, wf_bytes pub1 /\ wf_bytes pub2 /\ length pub1 = 32%nat /\ length pub2 = 32%nat /\
  denotes pub1 P /\ denotes pub2 (padd P T) /\ zmul 8 T = pzero /\ T <> pzero /\ pub1 <> pub2 /\ zmul 4 T <> pzero.
Proof. exact ex_torsion. Qed.

(** C52.  One message signed with one private key and two different public keys (NewKeyPair accepts any)
    shows the private scalar modulo q. *)
Theorem C52_two_public_keys_leak : forall H, hash_ok 64 H -> forall k pub1 pub2 m sg1 sg2,
  wf_bytes (pk_raw k) -> wf_bytes m -> wf_bytes pub1 -> wf_bytes pub2 ->
  sign H (KeyPair (Some k) pub1) m = Ok sg1 -> sign H (KeyPair (Some k) pub2) m = Ok sg2 ->
  sR sg1 = sR sg2 /\
  let dh := challenge H (sR sg1) pub1 m - challenge H (sR sg2) pub2 m in
  (~ (q25519 | dh) -> secret_scalar H (pk_raw k) mod q25519 = ((le_val (sS sg1) - le_val (sS sg2)) * dh ^ (q25519 - 2)) mod q25519).
Proof. exact leak_two_publics. Qed.
(** so do two accepted signatures with one R (whoever made them) *)
Theorem C52_repeated_R_leaks : forall H, hash_ok 64 H -> forall k pub m1 m2 R s1 s2,
  wf_bytes (pk_raw k) -> wf_bytes m1 -> wf_bytes m2 -> wf_bytes R -> wf_bytes s1 -> wf_bytes s2 ->
  length s1 = 32%nat -> length s2 = 32%nat -> le_val s1 <= 2 ^ 255 -> le_val s2 <= 2 ^ 255 ->
  derive_public_key H k = Ok pub ->
  verify H (KeyPair None pub) m1 (Sig R s1) = Ok true -> verify H (KeyPair None pub) m2 (Sig R s2) = Ok true ->
  let dh := challenge H R pub m1 - challenge H R pub m2 in
  ~ (q25519 | dh) -> secret_scalar H (pk_raw k) mod q25519 = ((le_val s1 - le_val s2) * dh ^ (q25519 - 2)) mod q25519.
Proof. exact leak_same_R. Qed.
(** the scalar modulo q is all one needs to sign any message with any nonce *)
Theorem C52_scalar_signs : forall H, hash_ok 64 H -> forall k a r m pub,
  wf_bytes (pk_raw k) -> wf_bytes m -> derive_public_key H k = Ok pub ->
  (q25519 | a - secret_scalar H (pk_raw k)) ->
  let R := enc_point (zmul r Bpt) in
  let s := (r + challenge H R pub m * a) mod q25519 in
  low64 s <> 0 -> low64 s <> low64 q25519 ->
  verify H (KeyPair None pub) m (Sig R (le_bytes 32 s)) = Ok true.
Proof. exact forge. Qed.
(** both together *)
Theorem C52_two_public_keys_forge : forall H, hash_ok 64 H -> forall k pub1 pub2 pub m sg1 sg2 m' r,
  wf_bytes (pk_raw k) -> wf_bytes m -> wf_bytes m' -> wf_bytes pub1 -> wf_bytes pub2 ->
  derive_public_key H k = Ok pub ->
  sign H (KeyPair (Some k) pub1) m = Ok sg1 -> sign H (KeyPair (Some k) pub2) m = Ok sg2 ->
  let dh := challenge H (sR sg1) pub1 m - challenge H (sR sg2) pub2 m in
  let a := ((le_val (sS sg1) - le_val (sS sg2)) * dh ^ (q25519 - 2)) mod q25519 in
  let R := enc_point (zmul r Bpt) in
  let s := (r + challenge H R pub m' * a) mod q25519 in
  ~ (q25519 | dh) -> low64 s <> 0 -> low64 s <> low64 q25519 ->
  verify H (KeyPair None pub) m' (Sig R (le_bytes 32 s)) = Ok true.
Proof. exact leak_and_forge. Qed.
Example C52_nonvacuous_two_keys : hash_ok 64 HX /\ exists k pub1 pub2 m sg1 sg2,
  wf_bytes (pk_raw k) /\ wf_bytes m /\ wf_bytes pub1 /\ wf_bytes pub2 /\
  sign HX (KeyPair (Some k) pub1) m = Ok sg1 /\ sign HX (KeyPair (Some k) pub2) m = Ok sg2 /\
  ~ (q25519 | challenge HX (sR sg1) pub1 m - challenge HX (sR sg2) pub2 m).
Proof. exact (conj HX_ok ex_leak). Qed.
Example C52_nonvacuous_same_R : exists k pub m1 m2 R s1 s2,
  wf_bytes (pk_raw k) /\ wf_bytes m1 /\ wf_bytes m2 /\ wf_bytes R /\ wf_bytes s1 /\ wf_bytes s2 /\
  length s1 = 32%nat /\ length s2 = 32%nat /\ le_val s1 <= 2 ^ 255 /\ le_val s2 <= 2 ^ 255 /\
  derive_public_key HX k = Ok pub /\
  verify HX (KeyPair None pub) m1 (Sig R s1) = Ok true /\ verify HX (KeyPair None pub) m2 (Sig R s2) = Ok true /\
  ~ (q25519 | challenge HX R pub m1 - challenge HX R pub m2).
Proof. exact ex_same_R. Qed.

(** C53.  A derived public key decodes to a point of order exactly q: neither the neutral element nor
    one of the keys of C51, for every private key of any length. *)
Theorem C53_order : forall H, hash_ok 64 H -> forall k pub, wf_bytes (pk_raw k) -> derive_public_key H k = Ok pub ->
  exists A, denotes pub A /\ forall n, zmul n A = pzero <-> (q25519 | n).
Proof. exact derived_order. Qed.
(** two private keys have the same public key exactly when their secret scalars are equal *)
Theorem C53_same_public_key : forall H, hash_ok 64 H -> forall k1 k2, wf_bytes (pk_raw k1) -> wf_bytes (pk_raw k2) ->
  (derive_public_key H k1 = derive_public_key H k2 <-> secret_scalar H (pk_raw k1) = secret_scalar H (pk_raw k2)).
Proof. exact derived_equal_iff. Qed.
Example C53_nonvacuous : (exists k pub, wf_bytes (pk_raw k) /\ derive_public_key HX k = Ok pub) /\
  exists H k1 k2, hash_ok 64 H /\ wf_bytes (pk_raw k1) /\ wf_bytes (pk_raw k2) /\
    derive_public_key H k1 <> derive_public_key H k2.
Proof. exact ex_derived. Qed.

Print Assumptions C50_flipped_bits_accepted.
Print Assumptions C50_dropped_blocks_accepted.
Print Assumptions C50_sender_not_authenticated.
Print Assumptions C51_small_order_keys.
Print Assumptions C51_shared_key_public.
Print Assumptions C51_anyone_decrypts.
Print Assumptions C51_cofactor_ignored.
Print Assumptions C52_two_public_keys_leak.
Print Assumptions C52_repeated_R_leaks.
Print Assumptions C52_scalar_signs.
Print Assumptions C52_two_public_keys_forge.
Print Assumptions C53_order.
Print Assumptions C53_same_public_key.
