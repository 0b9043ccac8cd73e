(** Lemmas behind the properties C31 - C36. *)
From Coq Require Import List ZArith Lia Bool.
From Verif Require Import GoBase FieldModel FieldSpec ByteLemmas Fp Curve BasePoint GroupModel GroupSpec
  PointCodec PropFieldLemmas ScalarModel ApiModel ApiSpec ApiProofs VerifyProofs PropSigLemmas CipherProofs.
Import ListNotations.
Open Scope Z_scope.

Section S.
Variable H : list bytes -> bytes.
Hypothesis HH : hash_ok 64 H.
Variable G : bytes -> bytes.
Hypothesis HG : hash1_ok 32 G.

Lemma agreement k1 k2 kp1 kp2 salt : wf_bytes (pk_raw k1) -> wf_bytes (pk_raw k2) -> wf_bytes salt -> length salt = 32%nat ->
  new_key_pair H (Some k1) None = Ok kp1 -> new_key_pair H (Some k2) None = Ok kp2 ->
  exists key, length key = 32%nat /\ wf_bytes key /\
    get_shared_key H G 32 (Some k1) (kp_pub kp2) salt = Ok key /\
    get_shared_key H G 32 (Some k2) (kp_pub kp1) salt = Ok key.
Proof.
  intros W1 W2 Ws Ls E1 E2. apply (derived_inv H HH) in E1, E2; try assumption. subst kp1 kp2. cbn [kp_pub].
  apply shared_symmetric; assumption.
Qed.
Lemma shared_key_cases n k pub salt : wf_bytes (pk_raw k) -> wf_bytes pub -> length salt = 32%nat ->
  n = 32%nat ->
  (length pub <> 32%nat /\ get_shared_key H G n (Some k) pub salt = Err ErrEncodedGroup) \/
  (length pub = 32%nat /\ (forall P, ~ denotes pub P) /\ get_shared_key H G n (Some k) pub salt = Err ErrNotOnCurve) \/
  (exists P, length pub = 32%nat /\ denotes pub P /\ get_shared_key H G n (Some k) pub salt =
     Ok (G (xor_bytes (enc_point (zmul (secret_scalar H (pk_raw k)) P)) salt))).
Proof.
  intros Wk Wp Ls ->. destruct (Nat.eq_dec (length pub) 32) as [L|L].
  - right. destruct (g_decode_ok pub Wp (or_introl L)) as [(P & g & D & _)|[N _]].
    + right. exists P. split; [exact L|]. split; [exact D|]. apply (shared_key_ok H HH G); assumption.
    + left. split; [exact L|]. split; [exact N|]. apply shared_key_bad_point; assumption.
  - left. split; [exact L|]. apply shared_key_bad_length, L.
Qed.

Variables E D : bytes -> bytes -> bytes.
Hypothesis C : cipher_ok E D.

(** ** Encrypt: success, layout, failure *)
Lemma derived_encrypt k1 k2 kp1 kp2 src m : wf_bytes (pk_raw k1) -> wf_bytes (pk_raw k2) -> wf_bytes src -> wf_bytes m ->
  new_key_pair H (Some k1) None = Ok kp1 -> new_key_pair H (Some k2) None = Ok kp2 -> (48 <= length src)%nat ->
  exists c, encrypt H G E (new_block_cipher kp1 kp2) src m = Ok (firstn 48 src ++ c, skipn 48 src) /\
    length c = (16 * (length m / 16 + 1))%nat /\ wf_bytes c.
Proof.
  intros W1 W2 Ws Wm E1 E2 L. apply (derived_inv H HH) in E1, E2; try assumption. subst kp1 kp2.
  destruct (encrypt_ok H HH G HG E D C k1 (public_key_of H (pk_raw k1)) (derived H k2) (public_point H (pk_raw k2)) src m)
    as (c & Ec & _ & Lc & Wc); cbn [derived kp_pub]; try assumption; [apply enc_point_wf|apply enc_point_length|apply enc_denotes|].
  exists c. split; [|auto]. etransitivity; [exact Ec|]. rewrite app_assoc. do 3 f_equal.
  transitivity (firstn 48 (firstn 32 src ++ skipn 32 src)); [|now rewrite firstn_skipn].
  rewrite firstn_app, firstn_length_le by lia. rewrite (firstn_all2 (n := 48) (firstn 32 src)) by (rewrite firstn_length_le; lia). reflexivity.
Qed.
Lemma encrypt_eof k1 k2 kp1 kp2 src m : wf_bytes (pk_raw k1) -> wf_bytes (pk_raw k2) ->
  new_key_pair H (Some k1) None = Ok kp1 -> new_key_pair H (Some k2) None = Ok kp2 -> (length src < 48)%nat ->
  encrypt H G E (new_block_cipher kp1 kp2) src m = Err ErrEOF.
Proof.
  intros W1 W2 E1 E2 L. apply (derived_inv H HH) in E1, E2; try assumption. subst kp1 kp2.
  unfold encrypt, new_block_cipher. cbn [bc_keylen bc_sender bc_recipient kp_priv kp_pub].
  assert (Lp : length (public_key_of H (pk_raw k2)) = 32%nat) by apply enc_point_length. rewrite Lp.
  destruct (Nat.le_gt_cases 32 (length src)).
  - rewrite read_full_ok by lia. rewrite bind_ok. cbn [fst snd].
    rewrite (shared_key_ok H HH G k1 _ _ (public_point H (pk_raw k2)));
      [|exact W1|apply enc_point_wf|exact Lp|apply enc_denotes|apply firstn_length_le; lia].
    rewrite bind_ok. rewrite read_full_eof by (rewrite skipn_length; lia). reflexivity.
  - rewrite read_full_eof by lia. reflexivity.
Qed.
Lemma roundtrip k1 k2 kp1 kp2 src m : wf_bytes (pk_raw k1) -> wf_bytes (pk_raw k2) -> wf_bytes src -> wf_bytes m ->
  new_key_pair H (Some k1) None = Ok kp1 -> new_key_pair H (Some k2) None = Ok kp2 -> (48 <= length src)%nat ->
  exists out rest, encrypt H G E (new_block_cipher kp1 kp2) src m = Ok (out, rest) /\
    decrypt H G D (new_block_cipher kp1 kp2) out = Ok m.
Proof.
  intros W1 W2 Ws Wm E1 E2 L.
  destruct (derived_encrypt k1 k2 kp1 kp2 src m W1 W2 Ws Wm E1 E2 L) as (c & Ec & _).
  exists (firstn 48 src ++ c), (skipn 48 src). split; [exact Ec|].
  apply (derived_inv H HH) in E1, E2; try assumption. subst kp1 kp2.
  apply (decrypt_encrypt H HH G HG E D C k1 k2 src m _ (skipn 48 src)); assumption.
Qed.
(** the roles may be swapped: the recipient answers with the same pair of pairs; the sender can also
    read what it sent *)
Lemma sender_reads k1 k2 kp1 kp2 src m out rest : wf_bytes (pk_raw k1) -> wf_bytes (pk_raw k2) -> wf_bytes src -> wf_bytes m ->
  new_key_pair H (Some k1) None = Ok kp1 -> new_key_pair H (Some k2) None = Ok kp2 ->
  encrypt H G E (new_block_cipher kp1 kp2) src m = Ok (out, rest) ->
  decrypt H G D (new_block_cipher kp2 kp1) out = Ok m.
Proof.
  intros W1 W2 Ws Wm E1 E2 Ee.
  assert (L : (48 <= length src)%nat).
  { destruct (Nat.le_gt_cases 48 (length src)) as [|L]; [assumption|exfalso].
    rewrite (encrypt_eof k1 k2 kp1 kp2) in Ee by assumption. discriminate Ee. }
  apply (derived_inv H HH) in E1, E2; try assumption. subst kp1 kp2.
  pose proof (decrypt_encrypt H HH G HG E D C k1 k2 src m out rest W1 W2 Ws Wm Ee) as DE.
  assert (Lo : (64 <= length out)%nat).
  { destruct (Nat.le_gt_cases 64 (length out)) as [|Lo]; [assumption|exfalso].
    rewrite decrypt_short in DE by lia. discriminate DE. }
  unfold derived in DE. rewrite decrypt_steps in DE by (apply enc_point_length || exact Lo).
  rewrite decrypt_steps by (apply enc_point_length || exact Lo). cbn [kp_priv kp_pub] in *.
  assert (Wo : wf_bytes out).
  { destruct (derived_encrypt k1 k2 (derived H k1) (derived H k2) src m) as (c & Ec & _ & Wc); try assumption;
      try (apply (new_key_pair_derived H HH); assumption).
    assert (Eo : out = firstn 48 src ++ c) by (unfold derived in Ec; congruence). rewrite Eo. apply Forall_app. split; [apply wf_firstn, Ws|exact Wc]. }
  destruct (shared_symmetric H HH G HG k1 k2 (firstn 32 out) W1 W2) as (key & _ & _ & S1 & S2);
    [apply wf_firstn, Wo|apply firstn_length_le; lia|].
  rewrite S2 in DE. rewrite S1. exact DE.
Qed.

(** ** Decrypt *)
Lemma dec_block input : wf_bytes input -> (64 <= length input)%nat -> block (firstn 16 (skipn 32 input)).
Proof.
  intros W L. split; [apply wf_firstn, wf_skipn, W|]. apply firstn_length_le. rewrite skipn_length. lia.
Qed.
Lemma dec_len (input : bytes) : (64 <= length input)%nat -> (length (skipn 48 input) mod 16 = length input mod 16)%nat.
Proof.
  intros L. rewrite skipn_length. replace (length input) with (length input - 48 + 3 * 16)%nat at 2 by lia.
  now rewrite Nat.mod_add by discriminate.
Qed.
Section Dec.
Variables (kr : privkey) (rpub : bytes) (s : keypair).
Hypotheses (Wr : wf_bytes (pk_raw kr)) (Lr : length rpub = 32%nat) (Wsp : wf_bytes (kp_pub s)).
Notation bc := (new_block_cipher s (KeyPair (Some kr) rpub)).

Lemma decrypt_panics input : wf_bytes input -> (64 <= length input)%nat -> (length input mod 16 <> 0)%nat ->
  length (kp_pub s) = 32%nat -> (exists P, denotes (kp_pub s) P) ->
  decrypt H G D bc input = Panic.
Proof.
  intros Wi Li M Ls (P & DP). rewrite decrypt_steps by (exact Lr || exact Li). cbn [kp_priv].
  assert (L1 : length (firstn 32 input) = 32%nat) by (apply firstn_length_le; lia).
  rewrite (shared_key_ok H HH G kr (kp_pub s) _ P) by assumption. rewrite bind_ok.
  apply bc_decode_panic; [rewrite dec_len by exact Li; exact M| |apply dec_block; assumption].
  apply (shared_wf H G HG); [apply wf_firstn, Wi|exact L1].
Qed.
Lemma decrypt_no_panic input : wf_bytes input -> (length input < 64)%nat \/ (length input mod 16 = 0)%nat ->
  decrypt H G D bc input <> Panic.
Proof.
  intros Wi M. destruct (Nat.lt_ge_cases (length input) 64) as [L|Li]; [rewrite decrypt_short by exact L; discriminate|].
  destruct M as [M|M]; [lia|]. rewrite decrypt_steps by (exact Lr || exact Li). cbn [kp_priv].
  assert (L1 : length (firstn 32 input) = 32%nat) by (apply firstn_length_le; lia).
  destruct (shared_key_cases 32 kr (kp_pub s) (firstn 32 input) Wr Wsp L1 eq_refl) as [[_ ->]|[(_ & _ & ->)|(P & _ & _ & ->)]];
    [discriminate|discriminate|]. rewrite bind_ok.
  destruct (shared_wf H G HG (pk_raw kr) P (firstn 32 input) (wf_firstn 32 _ Wi) L1) as [Wk Lk].
  revert Wk Lk. generalize (G (xor_bytes (enc_point (zmul (secret_scalar H (pk_raw kr)) P)) (firstn 32 input))). intros key Wk Lk.
  destruct (bc_decode_total E D C (skipn 48 input) key (firstn 16 (skipn 32 input)) (wf_skipn 48 _ Wi)) as [(m & ->)|[->| ->]];
    try discriminate; try assumption.
  - rewrite dec_len by exact Li. exact M.
  - rewrite skipn_length. lia.
  - apply dec_block; assumption.
Qed.
End Dec.

(** Decrypt accepts exactly what Encrypt can produce *)
Lemma decrypt_iff k1 k2 kp1 kp2 input m : wf_bytes (pk_raw k1) -> wf_bytes (pk_raw k2) -> wf_bytes input -> wf_bytes m ->
  new_key_pair H (Some k1) None = Ok kp1 -> new_key_pair H (Some k2) None = Ok kp2 ->
  (length input mod 16 = 0)%nat ->
  (decrypt H G D (new_block_cipher kp1 kp2) input = Ok m <->
   encrypt H G E (new_block_cipher kp1 kp2) (firstn 48 input) m = Ok (input, [])).
Proof.
  intros W1 W2 Wi Wm E1 E2 M. split.
  - intros DE. pose proof (derived_inv H HH _ _ W1 E1) as K1. pose proof (derived_inv H HH _ _ W2 E2) as K2.
    assert (Li : (64 <= length input)%nat).
    { destruct (Nat.le_gt_cases 64 (length input)) as [|L]; [assumption|exfalso].
      rewrite decrypt_short in DE by lia. discriminate DE. }
    rewrite K1, K2 in DE. rewrite decrypt_steps in DE by (apply enc_point_length || exact Li). cbn [kp_priv kp_pub] in DE.
    assert (L1 : length (firstn 32 input) = 32%nat) by (apply firstn_length_le; lia).
    destruct (shared_symmetric H HH G HG k1 k2 (firstn 32 input) W1 W2) as (key & Lk & Wk & S1 & S2);
      [apply wf_firstn, Wi|exact L1|].
    rewrite S2, bind_ok in DE.
    apply (bc_decode_iff E D C) in DE; try assumption;
      [|apply wf_skipn, Wi|rewrite dec_len by exact Li; exact M|apply dec_block; assumption].
    rewrite K1, K2. unfold encrypt, new_block_cipher. cbn [bc_keylen bc_sender bc_recipient kp_priv kp_pub].
    assert (Lp : length (public_key_of H (pk_raw k2)) = 32%nat) by apply enc_point_length. rewrite Lp.
    assert (L48 : length (firstn 48 input) = 48%nat) by (apply firstn_length_le; lia).
    rewrite read_full_ok by lia. rewrite bind_ok. cbn [fst snd]. rewrite firstn_firstn. change (Nat.min 32 48) with 32%nat.
    rewrite S1, bind_ok. rewrite read_full_ok by (rewrite skipn_length; lia). rewrite bind_ok. cbn [fst snd].
    assert (Iv : firstn 16 (skipn 32 (firstn 48 input)) = firstn 16 (skipn 32 input)).
    { rewrite skipn_firstn_comm. change (48 - 32)%nat with 16%nat. now rewrite firstn_firstn. }
    rewrite Iv, DE, bind_ok. f_equal. f_equal.
    + rewrite <- app_assoc. rewrite <- (firstn_skipn 32 input) at 4. f_equal.
      rewrite <- (firstn_skipn 16 (skipn 32 input)) at 2. f_equal. symmetry. apply skipn_skipn.
    + rewrite skipn_skipn. apply skipn_all2. lia.
  - intros Ee. pose proof (derived_inv H HH _ _ W1 E1) as K1. pose proof (derived_inv H HH _ _ W2 E2) as K2. subst kp1 kp2.
    apply (decrypt_encrypt H HH G HG E D C k1 k2 (firstn 48 input) m input []); try assumption. apply wf_firstn, Wi.
Qed.
(** without private keys *)
Lemma encrypt_no_private spub r src m : wf_bytes (kp_pub r) ->
  (forall out, encrypt H G E (new_block_cipher (KeyPair None spub) r) src m <> Ok out) /\
  (length (kp_pub r) = 32%nat -> (32 <= length src)%nat -> (exists P, denotes (kp_pub r) P) ->
   encrypt H G E (new_block_cipher (KeyPair None spub) r) src m = Panic).
Proof.
  intros Wr. assert (K : (length (kp_pub r) = 32%nat -> (32 <= length src)%nat -> (exists P, denotes (kp_pub r) P) ->
   encrypt H G E (new_block_cipher (KeyPair None spub) r) src m = Panic)).
  { intros L Ls (P & DP). unfold encrypt, new_block_cipher. cbn [bc_keylen bc_sender bc_recipient kp_priv]. rewrite L.
    rewrite read_full_ok by exact Ls. rewrite bind_ok. cbn [fst].
    rewrite (shared_key_no_private H G _ (kp_pub r) _ P) by assumption. reflexivity. }
  split; [|exact K]. intros out F.
  unfold encrypt, new_block_cipher in F. cbn [bc_keylen bc_sender bc_recipient kp_priv] in F.
  destruct (Nat.le_gt_cases (length (kp_pub r)) (length src)) as [Ls|Ls];
    [|rewrite read_full_eof in F by exact Ls; discriminate F].
  rewrite read_full_ok in F by exact Ls. rewrite bind_ok in F. cbn [fst snd] in F.
  destruct (Nat.eq_dec (length (kp_pub r)) 32) as [L|L]; [|rewrite shared_key_bad_length in F by exact L; discriminate F].
  destruct (g_decode_ok (kp_pub r) Wr (or_introl L)) as [(P & g & DP & _)|[N _]].
  - rewrite (shared_key_no_private H G _ (kp_pub r) _ P) in F by assumption. discriminate F.
  - rewrite shared_key_bad_point in F by assumption. discriminate F.
Qed.
Lemma decrypt_no_private s rpub input : wf_bytes (kp_pub s) ->
  (forall m, decrypt H G D (new_block_cipher s (KeyPair None rpub)) input <> Ok m) /\
  (length rpub = 32%nat -> length (kp_pub s) = 32%nat -> (64 <= length input)%nat -> (exists P, denotes (kp_pub s) P) ->
   decrypt H G D (new_block_cipher s (KeyPair None rpub)) input = Panic).
Proof.
  intros Wsp. split.
  - intros m F. unfold decrypt, new_block_cipher in F. cbn [bc_keylen bc_sender bc_recipient kp_priv kp_pub] in F.
    destruct (Nat.ltb (length input) 64); [discriminate F|].
    destruct (slice input 0 (length rpub)) as [salt| |]; [|discriminate F|discriminate F]. rewrite bind_ok in F.
    destruct (slice input (length rpub) 48) as [iv| |]; [|discriminate F|discriminate F]. rewrite bind_ok in F.
    destruct (slice input 48 (length input)) as [c| |]; [|discriminate F|discriminate F]. rewrite bind_ok in F.
    destruct (Nat.eq_dec (length (kp_pub s)) 32) as [L|L]; [|rewrite shared_key_bad_length in F by exact L; discriminate F].
    destruct (g_decode_ok (kp_pub s) Wsp (or_introl L)) as [(P & g & DP & _)|[N _]].
    + rewrite (shared_key_no_private H G _ (kp_pub s) _ P) in F by assumption. discriminate F.
    + rewrite shared_key_bad_point in F by assumption. discriminate F.
  - intros Lr Ls Li (P & DP). rewrite decrypt_steps by assumption. cbn [kp_priv].
    rewrite (shared_key_no_private H G 32 (kp_pub s) _ P) by assumption. reflexivity.
Qed.
End S.

(** examples *)
Definition G7 (b : bytes) : bytes := repeat 7 32.
Lemma G7_ok : hash1_ok 32 G7.
Proof. intros b _. split; [reflexivity|]. apply wf_repeat. unfold is_byte. lia. Qed.
(** a toy cipher: xor with half the key *)
Definition Ex (k b : bytes) : bytes := xor_bytes b (firstn 16 k).
Lemma Ex_ok : cipher_ok Ex Ex.
Proof.
  intros k Wk Lk b [Wb Lb]. assert (L : length (firstn 16 k) = 16%nat) by (apply firstn_length_le; lia).
  assert (B : block (Ex k b)).
  { split; [apply xor_wf; [exact Wb|apply wf_firstn, Wk]|]. unfold Ex. rewrite xor_length; congruence. }
  assert (T : Ex k (Ex k b) = b) by (apply xor_twice; congruence).
  repeat split; try apply B; exact T.
Qed.
Lemma ex_pairs : exists k1 k2 kp1 kp2, wf_bytes (pk_raw k1) /\ wf_bytes (pk_raw k2) /\ k1 <> k2 /\
  new_key_pair H7 (Some k1) None = Ok kp1 /\ new_key_pair H7 (Some k2) None = Ok kp2.
Proof.
  set (k1 := new_private_key (le_bytes 32 12345)). set (k2 := new_private_key (le_bytes 32 54321)).
  assert (W1 : wf_bytes (pk_raw k1)) by apply le_bytes_wf. assert (W2 : wf_bytes (pk_raw k2)) by apply le_bytes_wf.
  exists k1, k2, (derived H7 k1), (derived H7 k2). split; [exact W1|]. split; [exact W2|].
  split; [vm_compute; discriminate|]. split; apply (new_key_pair_derived H7 H7_ok); assumption.
Qed.
Lemma derived_decodes H key : length (public_key_of H key) = 32%nat /\ exists P, denotes (public_key_of H key) P.
Proof. split; [apply enc_point_length|]. exists (public_point H key). apply enc_denotes. Qed.
