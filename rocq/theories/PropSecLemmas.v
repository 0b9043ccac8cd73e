(** Lemmas behind the properties C50 - C53. *)
From Coq Require Import List ZArith Lia Bool Znumtheory.
From Verif Require Import GoBase FieldModel FieldSpec ByteLemmas Primality Fp Curve BasePoint GroupModel GroupSpec
  PointCodec PropFieldLemmas PropGroupLemmas ScalarModel ApiModel ApiSpec ApiProofs VerifyProofs PropSigLemmas CipherProofs
  PropCipherLemmas Torsion.
Import ListNotations.
Open Scope Z_scope.

Lemma firstn_b c (r : bytes) : block c -> firstn 16 (c ++ r) = c.
Proof. exact (firstn_block (all_zero 32) eq_refl c r). Qed.
Lemma skipn_b c (r : bytes) : block c -> skipn 16 (c ++ r) = r.
Proof. exact (skipn_block (all_zero 32) eq_refl c r). Qed.
(** ** C50: the ciphertext is not authenticated *)
Lemma xor_assoc a : forall b c, xor_bytes a (xor_bytes b c) = xor_bytes (xor_bytes a b) c.
Proof.
  induction a as [|x a IH]; intros [|y b] [|z c]; cbn [xor_bytes]; try reflexivity. f_equal; [apply eq_sym, Z.lxor_assoc|apply IH].
Qed.
Lemma xor_bytes_length a : forall b, length (xor_bytes a b) = Nat.min (length a) (length b).
Proof. induction a as [|x a IH]; intros [|y b]; cbn; auto. Qed.
Lemma pad_skip k m : (16 * k <= length m)%nat -> pad (skipn (16 * k) m) = skipn (16 * k) (pad m).
Proof.
  intros L. unfold pad. rewrite skipn_length.
  assert (M : ((length m - 16 * k) mod 16 = length m mod 16)%nat).
  { replace (length m) with (length m - 16 * k + k * 16)%nat at 2 by lia. now rewrite Nat.mod_add by discriminate. }
  rewrite M, skipn_app. replace (16 * k - length m)%nat with 0%nat by lia. reflexivity.
Qed.
Lemma pad_xor m d : length d = 16%nat -> (16 <= length m)%nat ->
  pad (xor_bytes (firstn 16 m) d ++ skipn 16 m) = xor_bytes (firstn 16 (pad m)) d ++ skipn 16 (pad m).
Proof.
  intros Ld Lm. unfold pad. rewrite app_length, xor_bytes_length, firstn_length_le, Ld, skipn_length by lia.
  replace (Nat.min 16 16 + (length m - 16))%nat with (length m) by (rewrite Nat.min_id; lia).
  rewrite firstn_app, skipn_app. replace (16 - length m)%nat with 0%nat by lia. cbn [firstn skipn].
  rewrite app_nil_r, app_assoc. reflexivity.
Qed.

Lemma diff_mod n r h1 h2 a : n <> 0 -> (n | (r + h1 * a) mod n - (r + h2 * a) mod n - (h1 - h2) * a).
Proof.
  intros N. rewrite !Z.mod_eq by exact N. exists ((r + h2 * a) / n - (r + h1 * a) / n). ring.
Qed.
Section S.
Variable H : list bytes -> bytes.
Hypothesis HH : hash_ok 64 H.
Variable G : bytes -> bytes.
Hypothesis HG : hash1_ok 32 G.
Variables E D : bytes -> bytes -> bytes.
Hypothesis C : cipher_ok E D.

(** what an encryption consists of, and what decryption does with other parts *)
Lemma opened k1 k2 kp1 kp2 src m out rest : wf_bytes (pk_raw k1) -> wf_bytes (pk_raw k2) -> wf_bytes src -> wf_bytes m ->
  new_key_pair H (Some k1) None = Ok kp1 -> new_key_pair H (Some k2) None = Ok kp2 ->
  encrypt H G E (new_block_cipher kp1 kp2) src m = Ok (out, rest) ->
  exists salt iv c key, out = salt ++ iv ++ c /\ length salt = 32%nat /\ wf_bytes salt /\ block iv /\
    wf_bytes key /\ length key = 32%nat /\ bc_encode E m key iv = Ok c /\
    c = cbc_enc E (length m / 16 + 1) key iv (pad m) /\
    encrypt H G E (new_block_cipher kp2 kp1) src m = Ok (out, rest) /\
    forall iv' c', length iv' = 16%nat -> (16 <= length c')%nat ->
      decrypt H G D (new_block_cipher kp1 kp2) (salt ++ iv' ++ c') = bc_decode D c' key iv'.
Proof.
  intros W1 W2 Ws Wm E1 E2 Ee.
  assert (L : (48 <= length src)%nat).
  { destruct (Nat.le_gt_cases 48 (length src)) as [|L]; [assumption|exfalso].
    rewrite (encrypt_eof H HH G E k1 k2 kp1 kp2) in Ee by assumption. discriminate Ee. }
  apply (derived_inv H HH) in E1, E2; try assumption. subst kp1 kp2.
  assert (L1 : length (firstn 32 src) = 32%nat) by (apply firstn_length_le; lia).
  destruct (shared_symmetric H HH G HG k1 k2 (firstn 32 src) W1 W2) as (key & Lk & Wk & S1 & S2);
    [apply wf_firstn, Ws|exact L1|].
  assert (Bi : block (firstn 16 (skipn 32 src))).
  { split; [apply wf_firstn, wf_skipn, Ws|]. apply firstn_length_le. rewrite skipn_length. lia. }
  destruct (bc_encode_ok E D C m key _ Wm Wk Lk Bi) as (c & Eb & Wc & Lc & Vc).
  assert (X : forall ka kb, get_shared_key H G 32 (Some ka) (public_key_of H (pk_raw kb)) (firstn 32 src) = Ok key ->
    encrypt H G E (new_block_cipher (KeyPair (Some ka) (public_key_of H (pk_raw ka))) (KeyPair (Some kb) (public_key_of H (pk_raw kb)))) src m =
    Ok (firstn 32 src ++ firstn 16 (skipn 32 src) ++ c, skipn 48 src)).
  { intros ka kb K. unfold encrypt, new_block_cipher. cbn [bc_keylen bc_sender bc_recipient kp_priv kp_pub].
    assert (Lp : length (public_key_of H (pk_raw kb)) = 32%nat) by apply enc_point_length. rewrite Lp.
    rewrite read_full_ok by lia. rewrite bind_ok. cbn [fst snd]. rewrite K, bind_ok.
    rewrite read_full_ok by (rewrite skipn_length; lia). rewrite bind_ok. cbn [fst snd]. rewrite Eb, bind_ok.
    rewrite <- app_assoc, skipn_skipn. reflexivity. }
  pose proof (X k1 k2 S1) as X1. pose proof (X k2 k1 S2) as X2. clear X.
  rewrite X1 in Ee. rewrite X2, Ee. clear X1 X2.
  assert (Eo : out = firstn 32 src ++ firstn 16 (skipn 32 src) ++ c) by congruence.
  exists (firstn 32 src), (firstn 16 (skipn 32 src)), c, key.
  split; [exact Eo|]. split; [exact L1|]. split; [apply wf_firstn, Ws|]. split; [exact Bi|]. split; [exact Wk|].
  split; [exact Lk|]. split; [exact Eb|]. split; [exact Vc|]. split; [reflexivity|].
  intros iv' c' Li Lc'. rewrite decrypt_steps; [|apply enc_point_length|rewrite !app_length; lia].
  destruct (layout_parts (firstn 32 src) iv' c' L1 Li) as (-> & -> & ->). cbn [kp_priv kp_pub]. rewrite S2. reflexivity.
Qed.
Lemma swapped_encrypt k1 k2 kp1 kp2 src m out rest : wf_bytes (pk_raw k1) -> wf_bytes (pk_raw k2) -> wf_bytes src -> wf_bytes m ->
  new_key_pair H (Some k1) None = Ok kp1 -> new_key_pair H (Some k2) None = Ok kp2 ->
  encrypt H G E (new_block_cipher kp1 kp2) src m = Ok (out, rest) ->
  encrypt H G E (new_block_cipher kp2 kp1) src m = Ok (out, rest).
Proof.
  intros W1 W2 Ws Wm E1 E2 Ee. destruct (opened _ _ _ _ _ _ _ _ W1 W2 Ws Wm E1 E2 Ee) as (s & i & c & k & X). apply X.
Qed.
Lemma flipped k1 k2 kp1 kp2 src m out rest d : wf_bytes (pk_raw k1) -> wf_bytes (pk_raw k2) -> wf_bytes src -> wf_bytes m ->
  new_key_pair H (Some k1) None = Ok kp1 -> new_key_pair H (Some k2) None = Ok kp2 ->
  encrypt H G E (new_block_cipher kp1 kp2) src m = Ok (out, rest) ->
  block d -> (16 <= length m)%nat ->
  decrypt H G D (new_block_cipher kp1 kp2) (firstn 32 out ++ xor_bytes (firstn 16 (skipn 32 out)) d ++ skipn 48 out) =
    Ok (xor_bytes (firstn 16 m) d ++ skipn 16 m).
Proof.
  intros W1 W2 Ws Wm E1 E2 Ee [Wd Ld] Lm.
  destruct (opened _ _ _ _ _ _ _ _ W1 W2 Ws Wm E1 E2 Ee) as (salt & iv & c & key & -> & L1 & Wsalt & Bi & Wk & Lk & Eb & Vc & _ & X).
  destruct (layout_parts salt iv c L1 (proj2 Bi)) as (-> & -> & ->).
  destruct (bc_encode_ok E D C m key iv Wm Wk Lk Bi) as (c' & Eb' & Wc & Lc & _).
  assert (Ec : c' = c) by congruence. rewrite Ec in Wc, Lc. clear c' Eb' Ec.
  rewrite X; [|rewrite xor_length; rewrite ?Ld; apply Bi|lia].
  assert (B' : block (xor_bytes iv d)) by (apply xor_block; [exact Bi|split; assumption]).
  assert (Wm' : wf_bytes (xor_bytes (firstn 16 m) d ++ skipn 16 m)).
  { apply Forall_app. split; [apply xor_wf; [apply wf_firstn, Wm|exact Wd]|apply wf_skipn, Wm]. }
  apply (bc_roundtrip E D C _ key); try assumption.
  destruct (bc_encode_ok E D C _ key (xor_bytes iv d) Wm' Wk Lk B') as (c' & -> & _ & _ & ->). f_equal. rewrite Vc.
  assert (Lf : length (xor_bytes (firstn 16 m) d ++ skipn 16 m) = length m).
  { rewrite app_length, xor_bytes_length, firstn_length_le, Ld, skipn_length, Nat.min_id by lia. lia. }
  rewrite Lf, pad_xor by assumption. rewrite Nat.add_comm. cbn [Nat.add cbc_enc].
  assert (Lp : length (firstn 16 (pad m)) = 16%nat) by (apply firstn_length_le; rewrite pad_length; lia).
  assert (Bx : block (xor_bytes (firstn 16 (pad m)) d)).
  { apply xor_block; [split; [apply wf_firstn, pad_wf, Wm|exact Lp]|split; assumption]. }
  rewrite firstn_b, skipn_b by exact Bx.
  assert (K : xor_bytes (xor_bytes (firstn 16 (pad m)) d) (xor_bytes iv d) = xor_bytes (firstn 16 (pad m)) iv).
  { clear - Lp Ld Bi. destruct Bi as [_ Li]. revert Lp Ld Li. generalize (firstn 16 (pad m)) as a. generalize 16%nat.
    intros n a. revert n d iv. induction a as [|x a IH]; intros n [|y d'] [|z iv'] La Ld' Li; cbn [xor_bytes] in *;
      try reflexivity; try (cbn in *; lia).
    destruct n as [|n]; [discriminate La|]. cbn in La, Ld', Li. f_equal; [|apply (IH n); lia].
    rewrite (Z.lxor_comm z y), Z.lxor_assoc, <- (Z.lxor_assoc y y z), Z.lxor_nilpotent, Z.lxor_0_l. reflexivity. }
  rewrite K. reflexivity.
Qed.
(** dropping whole blocks from the front *)
Lemma cbc_drop key : wf_bytes key -> length key = 32%nat -> forall k n iv p, block iv -> wf_bytes p -> length p = (16 * n)%nat -> (k <= n)%nat ->
  skipn (16 * k) (cbc_enc E n key iv p) =
  cbc_enc E (n - k) key (firstn 16 (skipn (16 * k) (iv ++ cbc_enc E n key iv p))) (skipn (16 * k) p).
Proof.
  intros Wk Lk. induction k as [|k IH]; intros n iv p Bi Wp Lp Ln.
  - change (16 * 0)%nat with 0%nat. rewrite Nat.sub_0_r. cbn [skipn]. rewrite firstn_b by exact Bi. reflexivity.
  - destruct n as [|n]; [lia|]. cbn [cbc_enc Nat.sub].
    pose proof (block_firstn p n Wp Lp) as B. destruct (rest_skipn p n Wp Lp) as [Wr Lr].
    destruct (C key Wk Lk _ (xor_block _ _ B Bi)) as (Be & _).
    set (e := E key (xor_bytes (firstn 16 p) iv)) in *.
    replace (16 * S k)%nat with (16 + 16 * k)%nat by lia. rewrite <- !skipn_skipn, !skipn_b by assumption.
    apply IH; [exact Be|exact Wr|exact Lr|lia].
Qed.
Lemma dropped k1 k2 kp1 kp2 src m out rest k : wf_bytes (pk_raw k1) -> wf_bytes (pk_raw k2) -> wf_bytes src -> wf_bytes m ->
  new_key_pair H (Some k1) None = Ok kp1 -> new_key_pair H (Some k2) None = Ok kp2 ->
  encrypt H G E (new_block_cipher kp1 kp2) src m = Ok (out, rest) ->
  (16 * k <= length m)%nat ->
  decrypt H G D (new_block_cipher kp1 kp2) (firstn 32 out ++ skipn (32 + 16 * k) out) = Ok (skipn (16 * k) m).
Proof.
  intros W1 W2 Ws Wm E1 E2 Ee Lm.
  destruct (opened _ _ _ _ _ _ _ _ W1 W2 Ws Wm E1 E2 Ee) as (salt & iv & c & key & -> & L1 & Wsalt & Bi & Wk & Lk & Eb & Vc & _ & X).
  destruct (layout_parts salt iv c L1 (proj2 Bi)) as (-> & _ & _).
  rewrite <- skipn_skipn. rewrite (skipn_app 32), L1, Nat.sub_diag. rewrite (skipn_all2 salt) by (rewrite L1; apply le_n). change (skipn 0 (iv ++ c)) with (iv ++ c).
  change ([] ++ iv ++ c) with (iv ++ c).
  set (n := (length m / 16 + 1)%nat) in *.
  assert (Lp : length (pad m) = (16 * n)%nat) by apply pad_length.
  destruct (cbc_enc_len E D C key Wk Lk n iv (pad m) Bi (pad_wf m Wm) Lp) as [Wc Lc]. rewrite <- Vc in Wc, Lc.
  assert (Kn : (k < n)%nat).
  { unfold n. pose proof (Nat.div_le_lower_bound (length m) 16 k ltac:(discriminate) Lm). lia. }
  set (w := skipn (16 * k) (iv ++ c)).
  assert (Ww : wf_bytes w) by (apply wf_skipn, Forall_app; split; [apply Bi|exact Wc]).
  assert (Lw : length w = (16 + 16 * (n - k))%nat).
  { unfold w. rewrite skipn_length, app_length, (proj2 Bi), Lc. lia. }
  assert (Bw : block (firstn 16 w)) by (split; [apply wf_firstn, Ww|apply firstn_length_le; lia]).
  rewrite <- (firstn_skipn 16 w). rewrite X; [|apply Bw|rewrite skipn_length, Lw; lia].
  assert (Wm' : wf_bytes (skipn (16 * k) m)) by (apply wf_skipn, Wm).
  apply (bc_roundtrip E D C _ key); try assumption.
  destruct (bc_encode_ok E D C _ key (firstn 16 w) Wm' Wk Lk Bw) as (c' & -> & _ & _ & ->). f_equal.
  rewrite pad_skip by exact Lm.
  assert (N : (length (skipn (16 * k) m) / 16 + 1 = n - k)%nat).
  { rewrite skipn_length. unfold n. replace (length m) with (length m - 16 * k + k * 16)%nat at 2 by lia.
    rewrite Nat.div_add by discriminate. lia. }
  rewrite N. unfold w at 2. rewrite skipn_skipn. replace (16 * k + 16)%nat with (16 + 16 * k)%nat by lia.
  rewrite <- skipn_skipn. rewrite skipn_b by exact Bi.
  unfold w. rewrite Vc. symmetry. apply cbc_drop; try assumption; [apply pad_wf, Wm|lia].
Qed.

(** ** C51: small-order keys *)
Lemma small_shared k pub salt n : wf_bytes (pk_raw k) -> wf_bytes pub -> length pub = 32%nat -> length salt = 32%nat -> n = 32%nat ->
  small_order_y (le_val pub mod 2 ^ 255) ->
  get_shared_key H G n (Some k) pub salt = Ok (G (xor_bytes (1 :: all_zero 31) salt)).
Proof.
  intros Wk Wp Lp Ls -> Y. apply (small_order_iff pub Wp Lp) in Y as (P & DP & Z8).
  rewrite (shared_key_ok H HH G k pub salt P) by assumption. do 3 f_equal.
  destruct (scalar_shape H HH (pk_raw k) Wk) as ((j & ->) & _). rewrite zmul_mul, Z8, zmul_pzero. apply enc_zero.
Qed.
(** so anybody, with any private key, decrypts what is sent to such a key *)
Lemma small_anyone k1 kp1 k3 spub rpub src m out rest : wf_bytes (pk_raw k1) -> wf_bytes (pk_raw k3) -> wf_bytes src -> wf_bytes m ->
  kp_priv kp1 = Some k1 -> wf_bytes rpub -> length rpub = 32%nat -> wf_bytes spub -> length spub = 32%nat ->
  small_order_y (le_val rpub mod 2 ^ 255) -> small_order_y (le_val spub mod 2 ^ 255) -> (48 <= length src)%nat ->
  encrypt H G E (new_block_cipher kp1 (KeyPair None rpub)) src m = Ok (out, rest) ->
  decrypt H G D (new_block_cipher (KeyPair None spub) (KeyPair (Some k3) rpub)) out = Ok m.
Proof.
  intros W1 W3 Ws Wm K1 Wr Lr Wsp Lsp Yr Ys L Ee.
  unfold encrypt, new_block_cipher in Ee. cbn [bc_keylen bc_sender bc_recipient kp_priv kp_pub] in Ee. rewrite Lr, K1 in Ee.
  rewrite read_full_ok in Ee by lia. rewrite bind_ok in Ee. cbn [fst snd] in Ee.
  assert (L1 : length (firstn 32 src) = 32%nat) by (apply firstn_length_le; lia).
  rewrite (small_shared k1 rpub (firstn 32 src)) in Ee by (assumption || reflexivity). rewrite bind_ok in Ee.
  rewrite read_full_ok in Ee by (rewrite skipn_length; lia). rewrite bind_ok in Ee. cbn [fst snd] in Ee.
  assert (Bi : block (firstn 16 (skipn 32 src))).
  { split; [apply wf_firstn, wf_skipn, Ws|]. apply firstn_length_le. rewrite skipn_length. lia. }
  set (key := G (xor_bytes (1 :: all_zero 31) (firstn 32 src))) in *.
  assert (Kw : wf_bytes key /\ length key = 32%nat).
  { destruct (HG (xor_bytes (1 :: all_zero 31) (firstn 32 src))) as [Lk Wk]; [|split; assumption].
    apply xor_wf; [|apply wf_firstn, Ws]. constructor; [unfold is_byte; lia|]. apply wf_repeat. unfold is_byte. lia. }
  destruct Kw as [Wk Lk].
  destruct (bc_encode_ok E D C m key _ Wm Wk Lk Bi) as (c & Eb & Wc & Lc & Vc). rewrite Eb, bind_ok in Ee.
  assert (Eo : out = firstn 32 src ++ firstn 16 (skipn 32 src) ++ c) by (rewrite app_assoc; congruence). subst out.
  rewrite decrypt_steps; [|exact Lr|rewrite !app_length, L1, (proj2 Bi); lia].
  destruct (layout_parts (firstn 32 src) (firstn 16 (skipn 32 src)) c L1 (proj2 Bi)) as (-> & -> & ->). cbn [kp_priv kp_pub].
  rewrite (small_shared k3 spub (firstn 32 src)) by (assumption || reflexivity). rewrite bind_ok.
  apply (bc_roundtrip E D C _ key (firstn 16 (skipn 32 src))); assumption.
Qed.

(** ** C52: what leaks the private scalar *)
Lemma two_publics k pub1 pub2 m sg1 sg2 : wf_bytes (pk_raw k) -> wf_bytes m -> wf_bytes pub1 -> wf_bytes pub2 ->
  sign H (KeyPair (Some k) pub1) m = Ok sg1 -> sign H (KeyPair (Some k) pub2) m = Ok sg2 ->
  sR sg1 = sR sg2 /\
  (q25519 | (le_val (sS sg1) - le_val (sS sg2)) - (challenge H (sR sg1) pub1 m - challenge H (sR sg2) pub2 m) * secret_scalar H (pk_raw k)).
Proof.
  intros Wk Wm W1 W2 S1 S2.
  destruct (sign_equations H HH k m pub1 sg1 Wk Wm W1 S1) as (a & r & h1 & Ea & Er & ER1 & Eh1 & ES1).
  destruct (sign_equations H HH k m pub2 sg2 Wk Wm W2 S2) as (a' & r' & h2 & Ea' & Er' & ER2 & Eh2 & ES2).
  rewrite <- Ea in Ea'. rewrite <- Er in Er'. rewrite Ea', Er' in ES2. rewrite Er' in ER2. split; [congruence|].
  unfold challenge. rewrite <- Eh1, <- Eh2, <- Ea.
  assert (Q : 0 < q25519 < 2 ^ 256) by (split; reflexivity).
  pose proof (Z.mod_pos_bound (r + h1 * a) q25519 ltac:(lia)). pose proof (Z.mod_pos_bound (r + h2 * a) q25519 ltac:(lia)).
  rewrite ES1, ES2. rewrite !le_bytes_small by lia.
  apply diff_mod. discriminate.
Qed.
Lemma same_R k pub m1 m2 R s1 s2 : wf_bytes (pk_raw k) -> wf_bytes m1 -> wf_bytes m2 -> wf_bytes R -> wf_bytes s1 -> wf_bytes s2 ->
  length s1 = 32%nat -> length s2 = 32%nat -> le_val s1 <= 2 ^ 255 -> le_val s2 <= 2 ^ 255 ->
  derive_public_key H k = Ok pub ->
  verify H (KeyPair None pub) m1 (Sig R s1) = Ok true -> verify H (KeyPair None pub) m2 (Sig R s2) = Ok true ->
  (q25519 | (le_val s1 - le_val s2) - (challenge H R pub m1 - challenge H R pub m2) * secret_scalar H (pk_raw k)).
Proof.
  intros Wk Wm1 Wm2 WR Ws1 Ws2 L1 L2 B1 B2 Ep V1 V2. rewrite (derive_ok H HH k Wk) in Ep.
  assert (Epub : pub = public_key_of H (pk_raw k)) by congruence. clear Ep.
  destruct (public_key_wf H (pk_raw k)) as [Wp Lp]. rewrite <- Epub in Wp, Lp.
  destruct (verify_exact H HH (KeyPair None pub) m1 (Sig R s1) Wp Wm1 WR Ws1 Lp L1 B1) as (b1 & Eb1 & I1).
  destruct (verify_exact H HH (KeyPair None pub) m2 (Sig R s2) Wp Wm2 WR Ws2 Lp L2 B2) as (b2 & Eb2 & I2).
  assert (b1 = true) by congruence. assert (b2 = true) by congruence. subst b1 b2.
  destruct (proj1 I1 eq_refl) as (_ & _ & A1 & D1 & R1). destruct (proj1 I2 eq_refl) as (_ & _ & A2 & D2 & R2).
  cbn [kp_pub sR sS] in *. clear I1 I2 V1 V2 Eb1 Eb2.
  assert (DA : denotes pub (public_point H (pk_raw k))) by (rewrite Epub; apply enc_denotes).
  rewrite (denotes_unique _ _ _ D1 DA) in R1. rewrite (denotes_unique _ _ _ D2 DA) in R2.
  rewrite R1 in R2 at 1. apply enc_point_inj in R2. unfold public_point in R2. rewrite <- !zmul_mul, <- !zmul_sub in R2.
  apply zmul_B_inj in R2. set (a := secret_scalar H (pk_raw k)) in *.
  set (h1 := challenge H R pub m1) in *. set (h2 := challenge H R pub m2) in *.
  apply Z.mod_divide; [discriminate|].
  replace (le_val s1 - le_val s2 - (h1 - h2) * a) with ((le_val s1 - h1 * a) - (le_val s2 - h2 * a)) by ring.
  rewrite Zminus_mod, R2, Z.sub_diag. reflexivity.
Qed.
(** the congruence determines the scalar modulo q *)
Lemma solve_scalar ds dh a : ~ (q25519 | dh) -> (q25519 | ds - dh * a) -> a mod q25519 = (ds * dh ^ (q25519 - 2)) mod q25519.
Proof.
  intros N [t Et]. pose proof (fermat q25519 dh prime_q25519 N) as Fm.
  assert (Q : 1 < q25519) by reflexivity. set (q := q25519) in *. clearbody q.
  assert (P : dh ^ (q - 1) = dh * dh ^ (q - 2)) by (rewrite <- Z.pow_succ_r by lia; f_equal; lia).
  rewrite P in Fm. set (i := dh ^ (q - 2)) in *. clearbody i. clear P.
  replace (ds * i) with (a * (dh * i) + t * i * q) by lia.
  rewrite Z.mod_add by lia. rewrite Z.mul_mod, Fm, Z.mul_1_r, Z.mod_mod by lia. reflexivity.
Qed.
(** a scalar congruent to the private one signs every message *)
Lemma forge k a r m pub : wf_bytes (pk_raw k) -> wf_bytes m -> derive_public_key H k = Ok pub ->
  (q25519 | a - secret_scalar H (pk_raw k)) ->
  let R := enc_point (zmul r Bpt) in
  let s := (r + challenge H R pub m * a) mod q25519 in
  low64 s <> 0 -> low64 s <> low64 q25519 ->
  verify H (KeyPair None pub) m (Sig R (le_bytes 32 s)) = Ok true.
Proof.
  intros Wk Wm Ep [t Et] R s N0 Nq. rewrite (derive_ok H HH k Wk) in Ep.
  assert (Epub : pub = public_key_of H (pk_raw k)) by congruence. clear Ep.
  destruct (public_key_wf H (pk_raw k)) as [Wp Lp]. rewrite <- Epub in Wp, Lp.
  assert (Q : 0 < q25519 < 2 ^ 253) by (split; reflexivity).
  assert (Bs : 0 <= s < q25519) by (apply Z.mod_pos_bound; lia).
  assert (V : le_val (le_bytes 32 s) = s).
  { apply le_bytes_small. change (2 ^ 256) with (8 * 2 ^ 253). lia. }
  destruct (verify_exact H HH (KeyPair None pub) m (Sig R (le_bytes 32 s))) as (b & Eb & I); cbn [kp_pub sR sS]; try assumption.
  - apply enc_point_wf.
  - apply le_bytes_wf.
  - apply le_bytes_length.
  - rewrite V. change (2 ^ 255) with (4 * 2 ^ 253). lia.
  - rewrite Eb. f_equal. apply I. cbn [kp_pub sR sS]. rewrite V. split; [split; assumption|].
    split; [rewrite Epub; apply public_key_not_zero|]. exists (public_point H (pk_raw k)). split; [rewrite Epub; apply enc_denotes|].
    unfold R at 1. f_equal. set (h := challenge H R pub m) in *.
    unfold public_point. rewrite <- zmul_mul, <- zmul_sub. apply zmul_B_inj.
    unfold s. rewrite Zminus_mod_idemp_l. replace a with (secret_scalar H (pk_raw k) + t * q25519) by lia.
    replace (r + h * (secret_scalar H (pk_raw k) + t * q25519) - h * secret_scalar H (pk_raw k)) with (r + h * t * q25519) by ring.
    rewrite Z.mod_add by discriminate. reflexivity.
Qed.
(** adding a point of order dividing 8 to the public key does not change the shared key *)
Lemma torsion_shared k pub1 pub2 P T salt : wf_bytes (pk_raw k) -> wf_bytes pub1 -> wf_bytes pub2 -> length pub1 = 32%nat -> length pub2 = 32%nat ->
  length salt = 32%nat -> denotes pub1 P -> denotes pub2 (padd P T) -> zmul 8 T = pzero ->
  get_shared_key H G 32 (Some k) pub2 salt = get_shared_key H G 32 (Some k) pub1 salt.
Proof.
  intros Wk W1 W2 L1 L2 Ls D1 D2 Z8.
  rewrite (shared_key_ok H HH G k pub1 salt P), (shared_key_ok H HH G k pub2 salt (padd P T)) by assumption. do 4 f_equal.
  rewrite zmul_padd. destruct (scalar_shape H HH (pk_raw k) Wk) as ((j & ->) & _).
  rewrite (zmul_mul j 8 T), Z8, zmul_pzero, padd_0_r. reflexivity.
Qed.

(** ** C53: derived keys *)
Lemma scalar_not_q key : ~ (q25519 | secret_scalar H key).
Proof.
  destruct (secret_scalar_range H key) as [B [j Ej]]. rewrite Ej in B |- *. intros Dv.
  change (2 ^ 254) with (8 * 2 ^ 251) in B. change (2 ^ 255) with (8 * 2 ^ 252) in B.
  assert (Q : 2 ^ 252 < q25519) by reflexivity.
  apply prime_mult in Dv; [|exact prime_q25519]. destruct Dv as [Dv|Dv].
  - apply Z.divide_pos_le in Dv; [|assert (0 < 2 ^ 251) by reflexivity; lia]. lia.
  - apply Z.divide_pos_le in Dv; [|lia]. assert (8 < 2 ^ 252) by reflexivity. lia.
Qed.
Lemma derived_order k pub : wf_bytes (pk_raw k) -> derive_public_key H k = Ok pub ->
  exists A, denotes pub A /\ forall n, zmul n A = pzero <-> (q25519 | n).
Proof.
  intros Wk Ep. rewrite (derive_ok H HH k Wk) in Ep. assert (Epub : pub = public_key_of H (pk_raw k)) by congruence.
  exists (public_point H (pk_raw k)). split; [rewrite Epub; apply enc_denotes|]. intros n. unfold public_point.
  rewrite <- zmul_mul, order_B_iff. split.
  - intros Dv. apply prime_mult in Dv; [|exact prime_q25519]. destruct Dv as [Dv|Dv]; [exact Dv|]. now apply scalar_not_q in Dv.
  - intros Dv. now apply Z.divide_mul_l.
Qed.
Lemma derived_not_small k pub : wf_bytes (pk_raw k) -> derive_public_key H k = Ok pub -> ~ small_order_y (le_val pub mod 2 ^ 255).
Proof.
  intros Wk Ep Y. destruct (derived_order k pub Wk Ep) as (A & DA & O). rewrite (derive_ok H HH k Wk) in Ep.
  assert (Epub : pub = public_key_of H (pk_raw k)) by congruence. destruct (public_key_wf H (pk_raw k)) as [Wp Lp]. rewrite <- Epub in Wp, Lp.
  apply (small_order_iff pub Wp Lp) in Y as (P & DP & Z8). rewrite (denotes_unique _ _ _ DP DA) in Z8. apply O in Z8.
  apply Z.divide_pos_le in Z8; [|lia]. assert (8 < q25519) by reflexivity. lia.
Qed.
Lemma derived_equal_iff k1 k2 : wf_bytes (pk_raw k1) -> wf_bytes (pk_raw k2) ->
  (derive_public_key H k1 = derive_public_key H k2 <-> secret_scalar H (pk_raw k1) = secret_scalar H (pk_raw k2)).
Proof.
  intros W1 W2. rewrite !(derive_ok H HH) by assumption. unfold public_key_of, public_point. split.
  - intros Eo. assert (E1 : enc_point (zmul (secret_scalar H (pk_raw k1)) Bpt) = enc_point (zmul (secret_scalar H (pk_raw k2)) Bpt)) by congruence.
    apply enc_point_inj, zmul_B_inj in E1.
    destruct (secret_scalar_range H (pk_raw k1)) as [B1 [j1 E1']]. destruct (secret_scalar_range H (pk_raw k2)) as [B2 [j2 E2']].
    set (a1 := secret_scalar H (pk_raw k1)) in *. set (a2 := secret_scalar H (pk_raw k2)) in *. clearbody a1 a2.
    assert (Dv : (q25519 | 8 * (j1 - j2))).
    { replace (8 * (j1 - j2)) with (a1 - a2) by lia. apply Z.mod_divide; [discriminate|]. rewrite Zminus_mod, E1, Z.sub_diag. reflexivity. }
    apply prime_mult in Dv; [|exact prime_q25519]. assert (Q : 2 ^ 252 < q25519) by reflexivity.
    change (2 ^ 254) with (8 * 2 ^ 251) in *. change (2 ^ 255) with (8 * (2 * 2 ^ 251)) in *. change (2 ^ 252) with (2 * 2 ^ 251) in Q.
    assert (0 < 2 ^ 251) by reflexivity. destruct Dv as [Dv|Dv].
    + apply Z.divide_pos_le in Dv; [|lia]. assert (8 < 2 ^ 251) by reflexivity. lia.
    + destruct (Z.eq_dec j1 j2) as [->|Nj]; [lia|]. exfalso. apply Z.divide_abs_r in Dv. apply Z.divide_pos_le in Dv; lia.
  - now intros ->.
Qed.
End S.

Section L.
Variable H : list bytes -> bytes.
Hypothesis HH : hash_ok 64 H.
Lemma leak_two_publics k pub1 pub2 m sg1 sg2 : wf_bytes (pk_raw k) -> wf_bytes m -> wf_bytes pub1 -> wf_bytes pub2 ->
  sign H (KeyPair (Some k) pub1) m = Ok sg1 -> sign H (KeyPair (Some k) pub2) m = Ok sg2 ->
  sR sg1 = sR sg2 /\
  let dh := challenge H (sR sg1) pub1 m - challenge H (sR sg2) pub2 m in
  (~ (q25519 | dh) -> secret_scalar H (pk_raw k) mod q25519 = ((le_val (sS sg1) - le_val (sS sg2)) * dh ^ (q25519 - 2)) mod q25519).
Proof.
  intros Wk Wm W1 W2 S1 S2. destruct (two_publics H HH k pub1 pub2 m sg1 sg2 Wk Wm W1 W2 S1 S2) as [ER Dv].
  split; [exact ER|]. intros dh N. apply solve_scalar; [exact N|exact Dv].
Qed.
Lemma leak_same_R k pub m1 m2 R s1 s2 : wf_bytes (pk_raw k) -> wf_bytes m1 -> wf_bytes m2 -> wf_bytes R -> wf_bytes s1 -> wf_bytes s2 ->
  length s1 = 32%nat -> length s2 = 32%nat -> le_val s1 <= 2 ^ 255 -> le_val s2 <= 2 ^ 255 ->
  derive_public_key H k = Ok pub ->
  verify H (KeyPair None pub) m1 (Sig R s1) = Ok true -> verify H (KeyPair None pub) m2 (Sig R s2) = Ok true ->
  let dh := challenge H R pub m1 - challenge H R pub m2 in
  ~ (q25519 | dh) -> secret_scalar H (pk_raw k) mod q25519 = ((le_val s1 - le_val s2) * dh ^ (q25519 - 2)) mod q25519.
Proof.
  intros Wk W1 W2 WR Ws1 Ws2 L1 L2 B1 B2 Ep V1 V2 dh N. apply solve_scalar; [exact N|].
  exact (same_R H HH k pub m1 m2 R s1 s2 Wk W1 W2 WR Ws1 Ws2 L1 L2 B1 B2 Ep V1 V2).
Qed.
(** both steps: from two such signatures anybody signs any message, without the private key *)
Lemma leak_and_forge k pub1 pub2 pub m sg1 sg2 m' r : wf_bytes (pk_raw k) -> wf_bytes m -> wf_bytes m' -> wf_bytes pub1 -> wf_bytes pub2 ->
  derive_public_key H k = Ok pub ->
  sign H (KeyPair (Some k) pub1) m = Ok sg1 -> sign H (KeyPair (Some k) pub2) m = Ok sg2 ->
  let dh := challenge H (sR sg1) pub1 m - challenge H (sR sg2) pub2 m in
  let a := ((le_val (sS sg1) - le_val (sS sg2)) * dh ^ (q25519 - 2)) mod q25519 in
  let R := enc_point (zmul r Bpt) in
  let s := (r + challenge H R pub m' * a) mod q25519 in
  ~ (q25519 | dh) -> low64 s <> 0 -> low64 s <> low64 q25519 ->
  verify H (KeyPair None pub) m' (Sig R (le_bytes 32 s)) = Ok true.
Proof.
  intros Wk Wm Wm' W1 W2 Ep S1 S2 dh a R s N N0 Nq.
  destruct (leak_two_publics k pub1 pub2 m sg1 sg2 Wk Wm W1 W2 S1 S2) as [_ La]. specialize (La N).
  apply (forge H HH k a r m' pub Wk Wm' Ep); [|exact N0|exact Nq].
  fold dh a in La. rewrite <- La. exists (- (secret_scalar H (pk_raw k) / q25519)).
  rewrite Z.mod_eq by discriminate. ring.
Qed.
End L.

(** ** Non-vacuity: a hash function whose challenges differ *)
Definition HX (parts : list bytes) : bytes :=
  match parts with [_; A; m] => firstn 64 (m ++ A ++ repeat 7 64) | _ => repeat 7 64 end.
Lemma HX_ok : hash_ok 64 HX.
Proof.
  intros parts W. assert (W7 : wf_bytes (repeat 7 64)) by (apply wf_repeat; unfold is_byte; lia).
  assert (X : length (repeat 7 64) = 64%nat /\ wf_bytes (repeat 7 64)) by (split; [reflexivity|exact W7]).
  destruct parts as [|a [|b [|c [|e l]]]]; try exact X. unfold HX. split.
  - apply firstn_length_le. rewrite !app_length, repeat_length. lia.
  - inversion W as [|? ? Wa W1]; subst. inversion W1 as [|? ? Wb W2]; subst. inversion W2 as [|? ? Wc _]; subst.
    apply wf_firstn, Forall_app. split; [exact Wc|]. apply Forall_app. split; [exact Wb|exact W7].
Qed.
Definition exk : privkey := new_private_key (le_bytes 32 12345).
Lemma exk_wf : wf_bytes (pk_raw exk). Proof. apply le_bytes_wf. Qed.
Lemma ex_signs pub : pub = le_bytes 32 1 \/ pub = le_bytes 32 2 ->
  exists sg, sign HX (KeyPair (Some exk) pub) [5] = Ok sg.
Proof.
  intros Hp. assert (Wp : wf_bytes pub) by (destruct Hp as [-> | ->]; apply le_bytes_wf).
  assert (Wm : wf_bytes [5]) by (constructor; [unfold is_byte; lia|constructor]).
  assert (SS : sig_S HX (pk_raw exk) pub [5] =
    (le_val (repeat 7 64) mod q25519 + le_val (firstn 64 ([5] ++ pub ++ repeat 7 64)) mod q25519 *
      (2 ^ 254 + 8 * ((le_val (firstn 32 (repeat 7 64)) mod 2 ^ 254) / 8))) mod q25519) by reflexivity.
  pose proof (sign_ok HX HX_ok exk pub [5] exk_wf Wp Wm) as S0. cbv zeta in S0. rewrite SS in S0.
  destruct ((low64 _ =? 0) || _) eqn:C in S0; [|eexists; exact S0].
  exfalso. clear - Hp C. destruct Hp as [-> | ->]; vm_compute in C; discriminate C.
Qed.
Lemma ex_leak : exists k pub1 pub2 m sg1 sg2, wf_bytes (pk_raw k) /\ wf_bytes m /\ wf_bytes pub1 /\ wf_bytes pub2 /\
  sign HX (KeyPair (Some k) pub1) m = Ok sg1 /\ sign HX (KeyPair (Some k) pub2) m = Ok sg2 /\
  ~ (q25519 | challenge HX (sR sg1) pub1 m - challenge HX (sR sg2) pub2 m).
Proof.
  destruct (ex_signs (le_bytes 32 1) (or_introl eq_refl)) as (sg1 & E1).
  destruct (ex_signs (le_bytes 32 2) (or_intror eq_refl)) as (sg2 & E2).
  exists exk, (le_bytes 32 1), (le_bytes 32 2), [5], sg1, sg2. split; [exact exk_wf|].
  split; [constructor; [unfold is_byte; lia|constructor]|]. split; [apply le_bytes_wf|]. split; [apply le_bytes_wf|].
  split; [exact E1|]. split; [exact E2|]. clear E1 E2. unfold challenge, HX.
  intros Dv. apply Z.mod_divide in Dv; [|discriminate]. vm_compute in Dv. discriminate Dv.
Qed.
Lemma ex_same_R : exists k pub m1 m2 R s1 s2, wf_bytes (pk_raw k) /\ wf_bytes m1 /\ wf_bytes m2 /\ wf_bytes R /\ wf_bytes s1 /\ wf_bytes s2 /\
  length s1 = 32%nat /\ length s2 = 32%nat /\ le_val s1 <= 2 ^ 255 /\ le_val s2 <= 2 ^ 255 /\
  derive_public_key HX k = Ok pub /\
  verify HX (KeyPair None pub) m1 (Sig R s1) = Ok true /\ verify HX (KeyPair None pub) m2 (Sig R s2) = Ok true /\
  ~ (q25519 | challenge HX R pub m1 - challenge HX R pub m2).
Proof.
  set (pub := public_key_of HX (pk_raw exk)).
  assert (Ep : derive_public_key HX exk = Ok pub) by apply (derive_ok HX HX_ok exk exk_wf).
  set (R := enc_point (zmul 77 Bpt)).
  set (mm := fun b : Z => repeat b 64).
  assert (Wmm : forall b, is_byte b -> wf_bytes (mm b)) by (intros b Wb; apply wf_repeat; exact Wb).
  assert (Ch : forall b, challenge HX R pub (mm b) = le_val (repeat b 64) mod q25519).
  { intros b. unfold challenge, HX. rewrite firstn_app. change (length (mm b)) with 64%nat. rewrite Nat.sub_diag.
    rewrite firstn_O, app_nil_r. change (mm b) with (repeat b 64). rewrite (firstn_all2 (n := 64) (repeat b 64)); [reflexivity|]. rewrite repeat_length. lia. }
  set (ss := fun b => (77 + challenge HX R pub (mm b) * secret_scalar HX (pk_raw exk)) mod q25519).
  assert (Es : forall b, ss b = (77 + le_val (repeat b 64) mod q25519 * (2 ^ 254 + 8 * ((le_val (firstn 32 (repeat 7 64)) mod 2 ^ 254) / 8))) mod q25519).
  { intros b. unfold ss. rewrite Ch. reflexivity. }
  assert (Bs : forall b, le_val (le_bytes 32 (ss b)) <= 2 ^ 255).
  { intros b. assert (B : 0 <= ss b < q25519) by (apply Z.mod_pos_bound; reflexivity).
    assert (Q : q25519 < 2 ^ 253) by reflexivity. rewrite le_bytes_small; [|change (2 ^ 256) with (8 * 2 ^ 253); lia].
    change (2 ^ 255) with (4 * 2 ^ 253). lia. }
  assert (V : forall b, is_byte b -> low64 (ss b) <> 0 -> low64 (ss b) <> low64 q25519 ->
    verify HX (KeyPair None pub) (mm b) (Sig R (le_bytes 32 (ss b))) = Ok true).
  { intros b Wb N0 Nq. apply (forge HX HX_ok exk (secret_scalar HX (pk_raw exk)) 77 (mm b) pub exk_wf (Wmm b Wb) Ep);
      [exists 0; ring|exact N0|exact Nq]. }
  exists exk, pub, (mm 1), (mm 2), R, (le_bytes 32 (ss 1)), (le_bytes 32 (ss 2)).
  split; [exact exk_wf|]. split; [apply Wmm; unfold is_byte; lia|]. split; [apply Wmm; unfold is_byte; lia|].
  split; [apply enc_point_wf|]. split; [apply le_bytes_wf|]. split; [apply le_bytes_wf|].
  split; [apply le_bytes_length|]. split; [apply le_bytes_length|]. split; [apply Bs|]. split; [apply Bs|]. split; [exact Ep|].
  split; [apply V; [unfold is_byte; lia| |]; rewrite Es; vm_compute; discriminate|].
  split; [apply V; [unfold is_byte; lia| |]; rewrite Es; vm_compute; discriminate|].
  rewrite !Ch. intros Dv. apply Z.mod_divide in Dv; [|discriminate]. vm_compute in Dv. discriminate Dv.
Qed.
(** ** Forms for the statements *)
Lemma small_order_list pub : wf_bytes pub -> length pub = 32%nat ->
  ((exists P, denotes pub P /\ zmul 8 P = pzero) <->
   In (le_val pub mod 2 ^ 255)
     [0; 1; 2 ^ 255 - 20; 2 ^ 255 - 19; 2 ^ 255 - 18;
      2707385501144840649318225287225658788936804267575313519463743609750303402022;
      2 ^ 255 - 19 - 2707385501144840649318225287225658788936804267575313519463743609750303402022]).
Proof.
  intros W L. rewrite (small_order_iff pub W L). generalize (le_val pub mod 2 ^ 255). intros v.
  unfold small_order_y. change y8_z with 2707385501144840649318225287225658788936804267575313519463743609750303402022.
  assert (A1 : p25519 - 1 = 2 ^ 255 - 20) by reflexivity. assert (A2 : p25519 = 2 ^ 255 - 19) by reflexivity.
  assert (A3 : p25519 + 1 = 2 ^ 255 - 18) by reflexivity. rewrite A1, A3, A2. cbn [In].
  intuition (subst; tauto || (left; congruence) || auto).
Qed.
Lemma small_shared_point H : hash_ok 64 H -> forall G k pub salt P,
  wf_bytes (pk_raw k) -> wf_bytes pub -> length pub = 32%nat -> length salt = 32%nat ->
  denotes pub P -> zmul 8 P = pzero ->
  get_shared_key H G 32 (Some k) pub salt = Ok (G (xor_bytes (1 :: all_zero 31) salt)).
Proof.
  intros HH G k pub salt P Wk Wp Lp Ls DP Z8. apply (small_shared H HH G k pub salt 32%nat Wk Wp Lp Ls eq_refl).
  apply (small_order_iff pub Wp Lp). exists P. split; assumption.
Qed.
Lemma small_anyone_point H : hash_ok 64 H -> forall G, hash1_ok 32 G -> forall E D, cipher_ok E D ->
  forall k1 kp1 k3 spub rpub src m out rest P Q,
  wf_bytes (pk_raw k1) -> wf_bytes (pk_raw k3) -> wf_bytes src -> wf_bytes m ->
  kp_priv kp1 = Some k1 -> wf_bytes rpub -> length rpub = 32%nat -> wf_bytes spub -> length spub = 32%nat ->
  denotes rpub P -> zmul 8 P = pzero -> denotes spub Q -> zmul 8 Q = pzero ->
  encrypt H G E (new_block_cipher kp1 (KeyPair None rpub)) src m = Ok (out, rest) ->
  decrypt H G D (new_block_cipher (KeyPair None spub) (KeyPair (Some k3) rpub)) out = Ok m.
Proof.
  intros HH G HG E D C k1 kp1 k3 spub rpub src m out rest P Q W1 W3 Ws Wm K1 Wr Lr Wsp Lsp DP ZP DQ ZQ Ee.
  assert (Yr : small_order_y (le_val rpub mod 2 ^ 255)) by (apply (small_order_iff rpub Wr Lr); exists P; split; assumption).
  assert (Ys : small_order_y (le_val spub mod 2 ^ 255)) by (apply (small_order_iff spub Wsp Lsp); exists Q; split; assumption).
  assert (L : (48 <= length src)%nat).
  { destruct (Nat.le_gt_cases 48 (length src)) as [|L]; [assumption|exfalso].
    unfold encrypt, new_block_cipher in Ee. cbn [bc_keylen bc_sender bc_recipient kp_priv kp_pub] in Ee. rewrite Lr, K1 in Ee.
    destruct (Nat.le_gt_cases 32 (length src)) as [L32|L32].
    - rewrite read_full_ok in Ee by lia. rewrite bind_ok in Ee. cbn [fst snd] in Ee.
      assert (L1 : length (firstn 32 src) = 32%nat) by (apply firstn_length_le; lia).
      rewrite (small_shared H HH G k1 rpub (firstn 32 src)) in Ee by (assumption || reflexivity). rewrite bind_ok in Ee.
      rewrite read_full_eof in Ee by (rewrite skipn_length; lia). discriminate Ee.
    - rewrite read_full_eof in Ee by lia. discriminate Ee. }
  exact (small_anyone H HH G HG E D C k1 kp1 k3 spub rpub src m out rest W1 W3 Ws Wm K1 Wr Lr Wsp Lsp Yr Ys L Ee).
Qed.
Lemma torsion4_y P : zmul 4 P = pzero -> py P = F0 \/ py P = F1 \/ py P = (- F1)%F.
Proof.
  rewrite zmul_4. intros E. apply order2_x0, double_px0 in E as [E|E]; [right|left; exact E].
  apply (px0_y (px P) (py P)); [apply pon|exact E].
Qed.
Lemma ex_torsion : exists pub1 pub2 P T, wf_bytes pub1 /\ wf_bytes pub2 /\ length pub1 = 32%nat /\ length pub2 = 32%nat /\
  denotes pub1 P /\ denotes pub2 (padd P T) /\ zmul 8 T = pzero /\ T <> pzero /\ pub1 <> pub2 /\ zmul 4 T <> pzero.
Proof.
  assert (Y : exists T, denotes (le_bytes 32 y8_z) T /\ zmul 8 T = pzero).
  { apply small_order_iff; [apply le_bytes_wf|apply le_bytes_length|]. vm_compute. tauto. }
  destruct Y as (T & DT & Z8).
  assert (N4 : zmul 4 T <> pzero).
  { intros Z4. apply torsion4_y in Z4. destruct DT as [DY _].
    assert (Yv : y255 (le_bytes 32 y8_z) = y8) by (apply F_eq; vm_compute; reflexivity). rewrite Yv in DY. rewrite DY in Z4.
    clear - Z4. destruct Z4 as [E|[E|E]]; apply (f_equal val) in E; vm_compute in E; discriminate E. }
  assert (NT : T <> pzero) by (intros ->; apply N4; apply zmul_pzero).
  exists (enc_point Bpt), (enc_point (padd Bpt T)), Bpt, T.
  split; [apply enc_point_wf|]. split; [apply enc_point_wf|]. split; [apply enc_point_length|]. split; [apply enc_point_length|].
  split; [apply enc_denotes|]. split; [apply enc_denotes|]. split; [exact Z8|]. split; [exact NT|]. split; [|exact N4].
  intros Eq. apply enc_point_inj in Eq. apply NT. apply (padd_cancel_l Bpt). rewrite <- Eq, padd_0_r. reflexivity.
Qed.
Lemma ex_open : hash_ok 64 H7 /\ hash1_ok 32 G7 /\ cipher_ok Ex Ex /\ exists k1 k2 kp1 kp2 src m out rest d,
  wf_bytes (pk_raw k1) /\ wf_bytes (pk_raw k2) /\ wf_bytes src /\ wf_bytes m /\
  new_key_pair H7 (Some k1) None = Ok kp1 /\ new_key_pair H7 (Some k2) None = Ok kp2 /\
  encrypt H7 G7 Ex (new_block_cipher kp1 kp2) src m = Ok (out, rest) /\
  block d /\ (32 <= length m)%nat /\ xor_bytes (firstn 16 m) d ++ skipn 16 m <> m /\ skipn 16 m <> m.
Proof.
  split; [exact H7_ok|]. split; [exact G7_ok|]. split; [exact Ex_ok|].
  destruct ex_pairs as (k1 & k2 & kp1 & kp2 & W1 & W2 & _ & E1 & E2).
  assert (W : forall b n, is_byte b -> wf_bytes (repeat b n)) by (intros; apply wf_repeat; assumption).
  assert (Wm : wf_bytes (repeat 5 32)) by (apply W; unfold is_byte; lia). assert (Ws : wf_bytes (repeat 3 48)) by (apply W; unfold is_byte; lia).
  destruct (derived_encrypt H7 H7_ok G7 G7_ok Ex Ex Ex_ok k1 k2 kp1 kp2 (repeat 3 48) (repeat 5 32) W1 W2 Ws Wm E1 E2) as (c & Ec & _);
    [rewrite repeat_length; lia|].
  exists k1, k2, kp1, kp2, (repeat 3 48), (repeat 5 32). eexists _, _, (repeat 1 16).
  split; [exact W1|]. split; [exact W2|]. split; [exact Ws|]. split; [exact Wm|]. split; [exact E1|]. split; [exact E2|].
  split; [exact Ec|]. split; [split; [apply W; unfold is_byte; lia|reflexivity]|]. clear. split; [rewrite repeat_length; lia|].
  split; intros K; vm_compute in K; discriminate K.
Qed.
Lemma ex_derived : (exists k pub, wf_bytes (pk_raw k) /\ derive_public_key HX k = Ok pub) /\
  exists H k1 k2, hash_ok 64 H /\ wf_bytes (pk_raw k1) /\ wf_bytes (pk_raw k2) /\
    derive_public_key H k1 <> derive_public_key H k2.
Proof.
  split.
  - exists exk. eexists. split; [exact exk_wf|]. apply (derive_ok HX HX_ok exk exk_wf).
  - set (Hk := fun parts : list bytes => match parts with [k] => firstn 64 (k ++ repeat 7 64) | _ => repeat 7 64 end).
    assert (W7 : wf_bytes (repeat 7 64)) by (apply wf_repeat; unfold is_byte; lia).
    assert (HO : hash_ok 64 Hk).
    { intros parts W. assert (X : length (repeat 7 64) = 64%nat /\ wf_bytes (repeat 7 64)) by (split; [reflexivity|exact W7]).
      destruct parts as [|a [|b l]]; try exact X. unfold Hk. split.
      - apply firstn_length_le. rewrite app_length, repeat_length. lia.
      - inversion W; subst. apply wf_firstn, Forall_app. split; assumption. }
    assert (Wk : forall b, is_byte b -> wf_bytes [b]) by (intros b Wb; constructor; [exact Wb|constructor]).
    exists Hk, (new_private_key [8]), (new_private_key [16]). split; [exact HO|].
    split; [apply Wk; unfold is_byte; lia|]. split; [apply Wk; unfold is_byte; lia|].
    rewrite (derived_equal_iff Hk HO) by (apply Wk; unfold is_byte; lia). clear. intros K. vm_compute in K. discriminate K.
Qed.
