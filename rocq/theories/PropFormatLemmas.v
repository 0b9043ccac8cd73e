(** Lemmas for C66. *)
From Coq Require Import List ZArith Lia Bool.
From Verif Require Import GoBase FieldModel FieldSpec ByteLemmas Fp Curve BasePoint GroupModel GroupSpec
  PointCodec PropFieldLemmas ApiModel ApiSpec ApiProofs VerifyProofs PropSigLemmas CipherProofs PropCipherLemmas ExampleLemmas PadSpec PadProofs CipherSpec.
Import ListNotations.
Open Scope Z_scope.

Lemma skipn_add {A} a b (l : list A) : skipn (a + b) l = skipn b (skipn a l).
Proof. revert l. induction a as [|a IH]; intros l; [reflexivity|]. destruct l; [now destruct b|]. apply IH. Qed.
Lemma block_at_S b i : block_at b (S i) = block_at (skipn 16 b) i.
Proof. unfold block_at. replace (16 * S i)%nat with (16 + 16 * i)%nat by lia. now rewrite skipn_add. Qed.
Lemma block_at_0 b : block_at b 0 = firstn 16 b. Proof. reflexivity. Qed.
Lemma block_head a r : length a = 16%nat -> block_at (a ++ r) 0 = a.
Proof. intros L. rewrite block_at_0, firstn_app, L, Nat.sub_diag, firstn_O, app_nil_r. apply firstn_all2. lia. Qed.
Lemma block_tail a r i : length a = 16%nat -> block_at (a ++ r) (S i) = block_at r i.
Proof. intros L. rewrite block_at_S. f_equal. rewrite skipn_app, L, Nat.sub_diag. now rewrite skipn_all2 by lia. Qed.
Lemma blocks_eq n : forall a b, length a = (16 * n)%nat -> length b = (16 * n)%nat ->
  (forall i, (i < n)%nat -> block_at a i = block_at b i) -> a = b.
Proof.
  induction n as [|n IH]; intros a b La Lb K.
  - destruct a, b; try discriminate; reflexivity.
  - rewrite <- (firstn_skipn 16 a), <- (firstn_skipn 16 b). f_equal; [exact (K 0%nat ltac:(lia))|].
    apply IH; [rewrite skipn_length; lia..|]. intros i Hi. rewrite <- !block_at_S. apply K. lia.
Qed.

Section Mode.
Variables E D : bytes -> bytes -> bytes.
Hypothesis C : cipher_ok E D.
Variable key : bytes.
Hypotheses (Wk : wf_bytes key) (Lk : length key = 32%nat).
Lemma cbc_enc_cbc n : forall iv p, block iv -> wf_bytes p -> length p = (16 * n)%nat -> cbc E key iv p (cbc_enc E n key iv p).
Proof.
  intros iv p Bi Wp Lp. split; [rewrite Lp; apply (cbc_enc_len E D C key Wk Lk n iv p Bi Wp Lp)|].
  revert iv p Bi Wp Lp. induction n as [|n IH]; intros iv p Bi Wp Lp i Hi; [lia|].
  pose proof (block_firstn p n Wp Lp) as B. destruct (rest_skipn p n Wp Lp) as [Wr Lr].
  destruct (C key Wk Lk _ (xor_block _ _ B Bi)) as ([We Le] & _). cbn [cbc_enc].
  set (c0 := E key (xor_bytes (firstn 16 p) iv)) in *.
  destruct i as [|i].
  - rewrite (block_head c0) by exact Le. rewrite (block_head iv) by apply Bi. reflexivity.
  - rewrite (block_tail c0) by exact Le. rewrite (block_tail iv) by apply Bi. rewrite (block_at_S p).
    apply (IH c0 (skipn 16 p) (conj We Le) Wr Lr i). lia.
Qed.
Lemma cbc_dec_cbc n : forall iv c, block iv -> wf_bytes c -> length c = (16 * n)%nat -> cbc_back D key iv c (cbc_dec D n key iv c).
Proof.
  intros iv p Bi Wp Lp. split; [rewrite Lp; apply (cbc_dec_len E D C key Wk Lk n iv p Bi Wp Lp)|].
  revert iv p Bi Wp Lp. induction n as [|n IH]; intros iv p Bi Wp Lp i Hi; [lia|].
  pose proof (block_firstn p n Wp Lp) as B. destruct (rest_skipn p n Wp Lp) as [Wr Lr].
  destruct (C key Wk Lk _ B) as (_ & Bd & _). pose proof (xor_block _ _ Bd Bi) as [_ Lx]. cbn [cbc_dec].
  destruct i as [|i].
  - rewrite (block_head (xor_bytes _ _)) by exact Lx. rewrite (block_head iv) by apply Bi. reflexivity.
  - rewrite (block_tail (xor_bytes _ _)) by exact Lx. rewrite (block_tail iv) by apply Bi. rewrite (block_at_S p).
    rewrite (IH (firstn 16 p) (skipn 16 p) B Wr Lr i) by lia. do 2 f_equal. apply firstn_skipn.
Qed.
End Mode.
Lemma cbc_unique_n E key n : forall iv p c1 c2, length iv = 16%nat -> length p = (16 * n)%nat -> cbc E key iv p c1 -> cbc E key iv p c2 -> c1 = c2.
Proof.
  induction n as [|n IH]; intros iv p c1 c2 Li Lp [L1 K1] [L2 K2].
  - destruct c1, c2; try reflexivity; cbn in L1, L2; lia.
  - assert (H0 : firstn 16 c1 = firstn 16 c2).
    { rewrite <- !block_at_0. rewrite K1, K2 by lia. rewrite !(block_head iv) by exact Li. reflexivity. }
    rewrite <- (firstn_skipn 16 c1), <- (firstn_skipn 16 c2). f_equal; [exact H0|].
    assert (T : forall c, length c = length p -> (forall i, (16 * i < length p)%nat -> block_at c i = E key (xors (block_at p i) (block_at (iv ++ c) i))) ->
      cbc E key (firstn 16 c) (skipn 16 p) (skipn 16 c)).
    { intros c L K. split; [rewrite !skipn_length; lia|]. intros i Hi. rewrite skipn_length in Hi.
      rewrite <- !block_at_S, firstn_skipn. rewrite K by lia. rewrite (block_tail iv) by exact Li. reflexivity. }
    apply (IH (firstn 16 c1) (skipn 16 p)); [apply firstn_length_le; lia|rewrite skipn_length; lia|apply T; assumption|rewrite H0; apply T; assumption].
Qed.
Lemma aligned_16 (p : bytes) : (length p mod 16 = 0)%nat -> length p = (16 * (length p / 16))%nat.
Proof. intros A. pose proof (Nat.div_mod (length p) 16 ltac:(discriminate)). lia. Qed.
Lemma cbc_unique E key iv p c1 c2 : length iv = 16%nat -> (length p mod 16 = 0)%nat ->
  cbc E key iv p c1 -> cbc E key iv p c2 -> c1 = c2.
Proof. intros Li A. apply (cbc_unique_n E key (length p / 16)%nat); [exact Li|apply aligned_16, A]. Qed.
Lemma cbc_back_unique D key iv c p1 p2 : (length c mod 16 = 0)%nat ->
  cbc_back D key iv c p1 -> cbc_back D key iv c p2 -> p1 = p2.
Proof.
  intros A [L1 K1] [L2 K2]. apply aligned_16 in A. apply (blocks_eq (length c / 16)%nat); [lia..|].
  intros i Hi. rewrite K1, K2 by lia. reflexivity.
Qed.
(** padding *)
Lemma pkcs7_iff m p : pkcs7 m p <-> p = pad m.
Proof.
  pose proof (Nat.mod_upper_bound (length m) 16 ltac:(discriminate)) as U. split.
  - intros (n & Hn & -> & A). rewrite app_length, repeat_length in A. unfold pad.
    assert (N : n = (16 - length m mod 16)%nat); [|now rewrite <- N].
    rewrite <- Nat.add_mod_idemp_l in A by discriminate.
    set (r := (length m mod 16)%nat) in *. clearbody r.
    pose proof (Nat.div_mod (r + n) 16 ltac:(discriminate)) as DM. rewrite A in DM.
    set (k := ((r + n) / 16)%nat) in *. clearbody k. lia.
  - intros ->. exists (16 - length m mod 16)%nat. split; [lia|]. split; [reflexivity|apply pad_aligned].
Qed.
Lemma pkcs7_exists m : exists p, pkcs7 m p.
Proof. exists (pad m). now apply pkcs7_iff. Qed.
Lemma pkcs7_unique m p p' : pkcs7 m p -> pkcs7 m p' -> p = p'.
Proof. rewrite !pkcs7_iff. congruence. Qed.
Lemma pkcs7_inverse m m' p : pkcs7 m p -> pkcs7 m' p -> m = m'.
Proof. rewrite !pkcs7_iff. intros A B. pose proof (unpad_pad m) as X. rewrite <- A, B, unpad_pad in X. congruence. Qed.
(** the error of a block string that is no padding *)
Lemma unpad_error buf : wf_bytes buf -> (16 <= length buf)%nat -> (length buf mod 16 = 0)%nat ->
  (forall m, unpad buf = Ok m <-> pkcs7 m buf) /\
  ((forall m, ~ pkcs7 m buf) -> unpad buf = Err (if (1 <=? last buf 0) && (last buf 0 <=? 16) then ErrPaddingByte else ErrPaddingSize)).
Proof.
  intros W L A. split.
  - intros m. rewrite pkcs7_iff. split; [apply unpad_sound; assumption|]. intros ->. apply unpad_pad.
  - intros N. assert (La : last buf 0 = byte_at buf (length buf - 1)).
    { destruct (exists_last (l := buf)) as (l & x & ->); [intros ->; cbn in L; lia|].
      rewrite last_last, app_length. unfold byte_at. cbn [length]. rewrite app_nth2 by lia.
      replace (length l + 1 - 1 - length l)%nat with 0%nat by lia. reflexivity. }
    assert (P : is_byte (last buf 0)).
    { rewrite La. apply (proj1 (Forall_forall _ _) W). apply nth_In. lia. }
    assert (NO : forall m, unpad buf <> Ok m) by (intros m U; apply (N m), pkcs7_iff, unpad_sound; assumption).
    revert NO. unfold unpad. destruct buf as [|x r] eqn:Eb; [cbn in L; lia|]. rewrite <- Eb in *. rewrite <- La. clear Eb x r.
    unfold is_byte in P. destruct (Z.leb_spec 1 (last buf 0)), (Z.leb_spec (last buf 0) 16); cbn [andb].
    + replace (last buf 0 =? 0) with false by (symmetry; apply Z.eqb_neq; lia).
      replace (16 <? last buf 0) with false by (symmetry; apply Z.ltb_ge; lia). cbn [orb].
      replace (Z.of_nat (length buf) - last buf 0 <? 0) with false by (symmetry; apply Z.ltb_ge; lia).
      destruct (forallb _ _); [|reflexivity]. intros NO. destruct (NO _ eq_refl).
    + replace (16 <? last buf 0) with true by (symmetry; apply Z.ltb_lt; lia). now rewrite orb_true_r.
    + replace (last buf 0 =? 0) with true by (symmetry; apply Z.eqb_eq; lia). reflexivity.
    + lia.
Qed.

Section S.
Variable H : list bytes -> bytes.
Hypothesis HH : hash_ok 64 H.
Variable G : bytes -> bytes.
Hypothesis HG : hash1_ok 32 G.
Variables E D : bytes -> bytes -> bytes.
Hypothesis C : cipher_ok E D.

Lemma encrypt_bytes k spub rpriv rpub P src m : wf_bytes (pk_raw k) -> wf_bytes rpub -> length rpub = 32%nat -> denotes rpub P ->
  wf_bytes src -> (48 <= length src)%nat -> wf_bytes m ->
  exists p c, pkcs7 m p /\ cbc E (agreed_key H G (pk_raw k) P (firstn 32 src)) (firstn 16 (skipn 32 src)) p c /\
    encrypt H G E (new_block_cipher (KeyPair (Some k) spub) (KeyPair rpriv rpub)) src m = Ok (firstn 48 src ++ c, skipn 48 src).
Proof.
  intros Wk Wr Lr DP Ws Ls Wm.
  destruct (encrypt_ok H HH G HG E D C k spub (KeyPair rpriv rpub) P src m) as (c & Ee & Eb & _ & _); try assumption.
  assert (L1 : length (firstn 32 src) = 32%nat) by (apply firstn_length_le; lia).
  assert (Bi : block (firstn 16 (skipn 32 src))).
  { split; [apply wf_firstn, wf_skipn, Ws|]. apply firstn_length_le. rewrite skipn_length. lia. }
  destruct (shared_wf H G HG (pk_raw k) P (firstn 32 src) (wf_firstn _ _ Ws) L1) as [Wkey Lkey].
  destruct (bc_encode_ok E D C m _ _ Wm Wkey Lkey Bi) as (c' & Eb' & _ & _ & Vc).
  assert (c' = c) as -> by congruence. clear Eb Eb'.
  exists (pad m), c. split; [now apply pkcs7_iff|]. split.
  - rewrite Vc. apply (cbc_enc_cbc E D C); try assumption; [apply pad_wf, Wm|apply pad_length].
  - rewrite Ee. do 2 f_equal. rewrite app_assoc. f_equal.
    change 48%nat with (32 + 16)%nat. clear. revert src.
    assert (X : forall n (l : bytes), firstn n l ++ firstn 16 (skipn n l) = firstn (n + 16) l).
    { induction n as [|n IH]; intros [|y l]; try reflexivity. cbn [firstn skipn app Nat.add]. f_equal. apply IH. }
    intros src. apply X.
Qed.
Lemma encrypt_errors skp rpriv rpub src m : wf_bytes rpub ->
  ((length src < length rpub)%nat -> encrypt H G E (new_block_cipher skp (KeyPair rpriv rpub)) src m = Err ErrEOF) /\
  ((length rpub <= length src)%nat -> length rpub <> 32%nat ->
     encrypt H G E (new_block_cipher skp (KeyPair rpriv rpub)) src m = Err ErrEncodedGroup) /\
  ((32 <= length src)%nat -> length rpub = 32%nat -> (forall P, ~ denotes rpub P) ->
     encrypt H G E (new_block_cipher skp (KeyPair rpriv rpub)) src m = Err ErrNotOnCurve) /\
  (forall k P, kp_priv skp = Some k -> wf_bytes (pk_raw k) -> (32 <= length src < 48)%nat -> length rpub = 32%nat -> denotes rpub P ->
     encrypt H G E (new_block_cipher skp (KeyPair rpriv rpub)) src m = Err ErrEOF).
Proof.
  intros Wr. unfold encrypt, new_block_cipher. cbn [bc_keylen bc_sender bc_recipient kp_pub]. split; [|split; [|split]].
  - intros L. now rewrite read_full_eof.
  - intros L N. rewrite read_full_ok by exact L. rewrite bind_ok. cbn [fst snd]. now rewrite shared_key_bad_length.
  - intros L N NP. rewrite read_full_ok by lia. rewrite bind_ok. cbn [fst snd]. now rewrite (shared_key_bad_point H G).
  - intros k P Ek Wk L N DP. rewrite read_full_ok by lia. rewrite bind_ok. cbn [fst snd]. rewrite Ek, N.
    rewrite (shared_key_ok H HH G k rpub _ P) by (assumption || apply firstn_length_le; lia). rewrite bind_ok.
    now rewrite read_full_eof by (rewrite skipn_length; lia).
Qed.
Lemma decrypt_bytes k rpub spriv spub P input : wf_bytes (pk_raw k) -> length rpub = 32%nat -> wf_bytes spub -> length spub = 32%nat ->
  denotes spub P -> wf_bytes input -> (64 <= length input)%nat -> (length input mod 16 = 0)%nat ->
  let result := decrypt H G D (new_block_cipher (KeyPair spriv spub) (KeyPair (Some k) rpub)) input in
  exists p, cbc_back D (agreed_key H G (pk_raw k) P (firstn 32 input)) (firstn 16 (skipn 32 input)) (skipn 48 input) p /\
    (forall m, result = Ok m <-> pkcs7 m p) /\
    ((forall m, ~ pkcs7 m p) -> result = Err (if (1 <=? last p 0) && (last p 0 <=? 16) then ErrPaddingByte else ErrPaddingSize)).
Proof.
  intros Wk Lr Wp Lp DP Wi Li Ai. cbv zeta.
  rewrite (decrypt_steps H G D _ _ input) by assumption. cbn [kp_priv kp_pub].
  assert (L1 : length (firstn 32 input) = 32%nat) by (apply firstn_length_le; lia).
  rewrite (shared_key_ok H HH G k spub _ P) by assumption. rewrite bind_ok.
  assert (Bi : block (firstn 16 (skipn 32 input))).
  { split; [apply wf_firstn, wf_skipn, Wi|]. apply firstn_length_le. rewrite skipn_length. lia. }
  destruct (shared_wf H G HG (pk_raw k) P (firstn 32 input) (wf_firstn _ _ Wi) L1) as [Wkey Lkey].
  assert (Ac : (length (skipn 48 input) mod 16 = 0)%nat).
  { rewrite skipn_length. apply aligned_16 in Ai. rewrite Ai.
    replace (16 * (length input / 16) - 48)%nat with ((length input / 16 - 3) * 16)%nat by lia. apply Nat.mod_mul. discriminate. }
  pose proof (aligned_16 _ Ac) as Lc. pose proof (wf_skipn 48 input Wi) as Wc.
  rewrite (bc_decode_ok D _ _ _ _ Wc Lc Wkey Lkey Bi).
  destruct (cbc_dec_len E D C _ Wkey Lkey _ _ _ Bi Wc Lc) as [Wd Ld].
  exists (cbc_dec D (length (skipn 48 input) / 16) (agreed_key H G (pk_raw k) P (firstn 32 input)) (firstn 16 (skipn 32 input)) (skipn 48 input)).
  split; [apply (cbc_dec_cbc E D C); assumption|]. apply unpad_error; [exact Wd| |].
  - rewrite <- Lc in Ld. etransitivity; [|apply Nat.eq_le_incl; symmetry; exact Ld]. rewrite skipn_length. lia.
  - rewrite <- Lc in Ld. unfold agreed_key. change xors with xor_bytes. rewrite Ld. exact Ac.
Qed.
(** a recipient whose public key does not have 32 bytes *)
Lemma xor_prefix_Ok n : forall k s x, xor_prefix n k s = Ok x -> (n <= length k)%nat.
Proof.
  induction n as [|n IH]; intros [|a k] [|b s] x; cbn [xor_prefix]; try discriminate; [cbn; lia..|].
  destruct (xor_prefix n k s) eqn:X; try discriminate. intros _. apply IH in X. cbn. lia.
Qed.
Lemma odd_recipient skp rkp input : length (kp_pub rkp) <> 32%nat ->
  forall m, decrypt H G D (new_block_cipher skp rkp) input <> Ok m.
Proof.
  intros N m. unfold decrypt, new_block_cipher. cbn [bc_keylen bc_sender bc_recipient].
  destruct (Nat.ltb_spec (length input) 64); [discriminate|]. unfold slice.
  set (n := length (kp_pub rkp)) in *.
  destruct (Nat.ltb n 0 || Nat.ltb (length input) n) eqn:E1; [discriminate|]. rewrite bind_ok.
  destruct (Nat.ltb 48 n || Nat.ltb (length input) 48) eqn:E2; [discriminate|]. rewrite bind_ok.
  apply orb_false_iff in E2 as [E2 _]. apply Nat.ltb_ge in E2.
  destruct (Nat.ltb (length input) 48 || Nat.ltb (length input) (length input)) eqn:E3; [discriminate|]. rewrite bind_ok.
  destruct (get_shared_key H G n (kp_priv rkp) (kp_pub skp) (firstn (n - 0) (skipn 0 input))) as [key| |]; try discriminate.
  rewrite bind_ok. unfold bc_decode. destruct (negb (aes_key_ok key)); [discriminate|]. unfold crypt_blocks.
  replace (Nat.eqb (length (firstn (48 - n) (skipn n input))) 16) with false; [discriminate|].
  symmetry. apply Nat.eqb_neq. rewrite firstn_length, skipn_length. lia.
Qed.
Lemma decrypt_errors skp rkp input : wf_bytes (kp_pub skp) -> length (kp_pub rkp) = 32%nat -> (64 <= length input)%nat ->
  (length (kp_pub skp) <> 32%nat -> decrypt H G D (new_block_cipher skp rkp) input = Err ErrEncodedGroup) /\
  (length (kp_pub skp) = 32%nat -> (forall P, ~ denotes (kp_pub skp) P) ->
     decrypt H G D (new_block_cipher skp rkp) input = Err ErrNotOnCurve).
Proof.
  intros W L Li. rewrite (decrypt_steps H G D) by assumption. split.
  - intros N. now rewrite shared_key_bad_length.
  - intros N NP. now rewrite (shared_key_bad_point H G).
Qed.
End S.
Lemma ex_pkcs7 : pkcs7 (repeat 7 20) (repeat 7 20 ++ repeat 12 12) /\ pkcs7 [] (repeat 16 16) /\ forall m, ~ pkcs7 m (repeat 0 16).
Proof.
  split; [exists 12%nat; split; [lia|]; split; reflexivity|]. split; [exists 16%nat; split; [lia|]; split; reflexivity|].
  intros m (n & Hn & Ep & _). assert (L : In (Z.of_nat n) (repeat 0 16)).
  { rewrite Ep. apply in_or_app. right. destruct n as [|n]; [lia|]. left. reflexivity. }
  apply repeat_spec in L. lia.
Qed.
Lemma ex_format : hash_ok 64 H7 /\ hash1_ok 32 G7 /\ cipher_ok Ex Ex /\
  exists k rpub P src m, wf_bytes (pk_raw k) /\ wf_bytes rpub /\ length rpub = 32%nat /\ denotes rpub P /\ wf_bytes src /\ (48 <= length src)%nat /\ wf_bytes m /\ (16 < length m)%nat.
Proof.
  split; [exact H7_ok|]. split; [exact G7_ok|]. split; [exact Ex_ok|].
  exists (new_private_key (repeat 3 32)), (enc_point Bpt), Bpt, (repeat 5 48), (repeat 9 20).
  split; [cbn [new_private_key pk_raw]; apply wf_repeat; unfold is_byte; lia|].
  split; [apply enc_point_wf|]. split; [apply enc_point_length|]. split; [apply enc_denotes|].
  split; [apply wf_repeat; unfold is_byte; lia|]. split; [rewrite repeat_length; lia|]. split; [apply wf_repeat; unfold is_byte; lia|rewrite repeat_length; lia].
Qed.
Lemma one_ciphertext E key iv m p p' c c' : length iv = 16%nat ->
  pkcs7 m p -> pkcs7 m p' -> cbc E key iv p c -> cbc E key iv p' c' -> p = p' /\ c = c'.
Proof.
  intros Li A B K K'. pose proof (pkcs7_unique m p p' A B) as <-. split; [reflexivity|].
  apply (cbc_unique E key iv p); try assumption. destruct A as (_ & _ & _ & A). exact A.
Qed.
Lemma one_plaintext D key iv c p p' m m' : (length c mod 16 = 0)%nat ->
  cbc_back D key iv c p -> cbc_back D key iv c p' -> pkcs7 m p -> pkcs7 m' p' -> p = p' /\ m = m'.
Proof.
  intros A K K' M M'. pose proof (cbc_back_unique D key iv c p p' A K K') as <-. split; [reflexivity|].
  exact (pkcs7_inverse m m' p M M').
Qed.
