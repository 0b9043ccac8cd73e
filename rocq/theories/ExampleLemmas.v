(** Concrete cases that meet the hypotheses of theorems in PropSig, PropCipher, PropCodec, PropGroup,
    PropShare.  [H7] hashes everything to sixty-four times 7, [Hz] to sixty-four times 0. *)
From Coq Require Import List ZArith Lia Bool.
From Verif Require Import GoBase FieldModel FieldSpec ByteLemmas Fp Curve BasePoint GroupModel GroupSpec GroupProofs PointCodec
  ScalarModel PropGroupLemmas TableProofs ApiModel ApiSpec ApiProofs VerifyProofs PropFieldLemmas PropSigLemmas CipherProofs PropCipherLemmas
  ScalarMul GroupEq.
Import ListNotations.
Open Scope Z_scope.

Definition Hz (parts : list bytes) : bytes := repeat 0 64.
Lemma Hz_ok : hash_ok 64 Hz.
Proof. intros parts _. split; [reflexivity|]. apply wf_repeat. unfold is_byte. lia. Qed.
(** signing succeeds with one hash function and fails with another *)
Lemma ex_sign_pub : exists k pub m sg, wf_bytes (pk_raw k) /\ wf_bytes m /\ wf_bytes pub /\
  sign H7 (KeyPair (Some k) pub) m = Ok sg.
Proof.
  destruct ex_sign as (k & m & kp & sg & Wk & Wm & E & S & _).
  pose proof (derived_inv H7 H7_ok _ _ Wk E) as ->. exists k, (public_key_of H7 (pk_raw k)), m, sg.
  split; [exact Wk|]. split; [exact Wm|]. split; [apply public_key_wf|exact S].
Qed.
Lemma ex_sign_fails : exists k pub m, wf_bytes (pk_raw k) /\ wf_bytes m /\ wf_bytes pub /\
  sign Hz (KeyPair (Some k) pub) m = Err ErrNotCanonical.
Proof.
  set (k := new_private_key (le_bytes 32 12345)). exists k, (le_bytes 32 9), (le_bytes 3 7).
  assert (Wk : wf_bytes (pk_raw k)) by apply le_bytes_wf.
  split; [exact Wk|]. split; [apply le_bytes_wf|]. split; [apply le_bytes_wf|].
  apply (sign_fails_iff Hz Hz_ok k _ _ Wk); [apply le_bytes_wf..|]. left.
  assert (E : sig_S Hz (pk_raw k) (le_bytes 32 9) (le_bytes 3 7) = (le_val (repeat 0 64) mod q25519 + le_val (repeat 0 64) mod q25519 *
      (2 ^ 254 + 8 * ((le_val (firstn 32 (repeat 0 64)) mod 2 ^ 254) / 8))) mod q25519) by reflexivity.
  rewrite E. vm_compute. reflexivity.
Qed.
Lemma ex_short_S : exists pub sg, wf_bytes pub /\ length pub = 32%nat /\ pub <> all_zero 32 /\ (exists A, denotes pub A) /\
  wf_bytes (sR sg) /\ (length (sS sg) < 32)%nat /\ is_canonical_signature sg = true.
Proof.
  exists base_bytes, (Sig (all_zero 32) [5]). split; [rewrite base_bytes_enc; apply enc_point_wf|].
  split; [reflexivity|]. split; [vm_compute; discriminate|].
  split; [exists Bpt; rewrite base_bytes_enc; apply enc_denotes|].
  split; [apply wf_repeat; unfold is_byte; lia|]. split; [cbn; lia|]. vm_compute. reflexivity.
Qed.
Lemma ex_canonical : exists r s : bytes, wf_bytes s /\ length r = 32%nat /\ length s = 32%nat /\ q25519 < le_val s <= 2 ^ 255 /\
  le_val s mod q25519 = 5.
Proof.
  exists (all_zero 32), (le_bytes 32 (5 + q25519)). split; [apply le_bytes_wf|]. split; [reflexivity|]. split; [apply le_bytes_length|].
  assert (V : le_val (le_bytes 32 (5 + q25519)) = 5 + q25519) by (rewrite le_bytes_val; reflexivity). rewrite V.
  split; [split; [reflexivity|discriminate]|reflexivity].
Qed.
(** an encryption that succeeds, and the inputs of C34 *)
Lemma ex_encrypts : hash_ok 64 H7 /\ hash1_ok 32 G7 /\ cipher_ok Ex Ex /\ exists k1 k2 kp1 kp2 src m out rest,
  wf_bytes (pk_raw k1) /\ wf_bytes (pk_raw k2) /\ wf_bytes src /\ wf_bytes m /\ (48 <= length src)%nat /\ (0 < length m)%nat /\
  new_key_pair H7 (Some k1) None = Ok kp1 /\ new_key_pair H7 (Some k2) None = Ok kp2 /\
  encrypt H7 G7 Ex (new_block_cipher kp1 kp2) src m = Ok (out, rest) /\ decrypt H7 G7 Ex (new_block_cipher kp1 kp2) out = Ok m.
Proof.
  split; [exact H7_ok|]. split; [exact G7_ok|]. split; [exact Ex_ok|].
  destruct ex_pairs as (k1 & k2 & kp1 & kp2 & W1 & W2 & _ & E1 & E2).
  assert (Ws : wf_bytes (repeat 9 50)) by (apply wf_repeat; unfold is_byte; lia).
  assert (Wm : wf_bytes (repeat 3 20)) by (apply wf_repeat; unfold is_byte; lia).
  destruct (roundtrip H7 H7_ok G7 G7_ok Ex Ex Ex_ok k1 k2 kp1 kp2 (repeat 9 50) (repeat 3 20) W1 W2 Ws Wm E1 E2) as (out & rest & X & Y);
    [rewrite repeat_length; lia|].
  exists k1, k2, kp1, kp2, (repeat 9 50), (repeat 3 20), out, rest.
  split; [exact W1|]. split; [exact W2|]. split; [exact Ws|]. split; [exact Wm|]. split; [rewrite repeat_length; lia|].
  split; [rewrite repeat_length; lia|]. split; [exact E1|]. split; [exact E2|]. split; [exact X|exact Y].
Qed.
Lemma ex_malformed : exists kr (rpub : bytes) s input, wf_bytes (pk_raw kr) /\ length rpub = 32%nat /\ wf_bytes (kp_pub s) /\
  wf_bytes input /\ (64 <= length input)%nat /\ (length input mod 16 <> 0)%nat /\ length (kp_pub s) = 32%nat /\
  exists P, denotes (kp_pub s) P.
Proof.
  exists (new_private_key (le_bytes 32 12345)), base_bytes, (KeyPair None base_bytes), (repeat 9 65).
  split; [apply le_bytes_wf|]. split; [reflexivity|]. cbn [kp_pub].
  split; [rewrite base_bytes_enc; apply enc_point_wf|]. split; [apply wf_repeat; unfold is_byte; lia|].
  split; [rewrite repeat_length; lia|]. split; [rewrite repeat_length; discriminate|]. split; [reflexivity|].
  exists Bpt. rewrite base_bytes_enc. apply enc_denotes.
Qed.
