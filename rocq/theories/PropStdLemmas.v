(** Lemmas behind [PropStd]. *)
From Coq Require Import List ZArith Lia Bool.
From Verif Require Import GoBase FieldModel FieldSpec ByteLemmas Fp Curve BasePoint GroupModel GroupSpec PointCodec
  ApiModel ApiSpec ApiProofs VerifyProofs PropSigLemmas CipherProofs PropCipherLemmas PadSpec PadProofs CipherSpec PropFormatLemmas
  ScalarSpec SlideExact HashModel PropHashLemmas FipsSpec PropFipsLemmas AesModel AesProofs AesSpec PropAesLemmas StdSpec.
Import ListNotations.
Open Scope Z_scope.
#[local] Opaque aes_encrypt aes_decrypt HashesSha3_512 HashesSha3_256.

(** ** The standards' functions are functions, and those of the library *)
Lemma sha512_iff parts d : Forall wf_bytes parts -> is_SHA3_512 (concat parts) d <-> d = sha3_512 parts.
Proof.
  intros W. destruct (fips_sha3_512 parts W) as (e & E & We & Le & Be).
  assert (X : sha3_512 parts = e) by (unfold sha3_512; now rewrite E). rewrite X. split.
  - intros (Wd & Ld & Bd). apply bits_of_inj; congruence.
  - intros ->. exact (conj We (conj Le Be)).
Qed.
Lemma sha256_iff b d : wf_bytes b -> is_SHA3_256 b d <-> d = sha3_256 b.
Proof.
  intros W. destruct (proj1 (fips_256 b W)) as (e & E & We & Le & Be).
  assert (X : sha3_256 b = e) by (unfold sha3_256; now rewrite E). rewrite X. split.
  - intros (Wd & Ld & Bd). apply bits_of_inj; congruence.
  - intros ->. exact (conj We (conj Le Be)).
Qed.
Lemma aes_iff key b c : wf_bytes key -> length key = 32%nat -> block b -> is_AES256 key b c <-> c = aes_encrypt key b.
Proof.
  intros W L B. split.
  - intros (w & Hw & ->). symmetry. now apply fips_encrypt.
  - intros ->. destruct (schedule_exists key W L) as [w Hw]. exists w. split; [exact Hw|]. now apply fips_encrypt.
Qed.
#[local] Opaque sha3_512 sha3_256.
Lemma wf1 (m : bytes) : wf_bytes m -> Forall wf_bytes [m]. Proof. intros W. exact (Forall_cons _ W (Forall_nil _)). Qed.
Lemma std_secret_iff private a prefix : wf_bytes private ->
  std_secret private a prefix <-> a = secret_scalar sha3_512 private /\ prefix = skipn 32 (sha3_512 [private]).
Proof.
  intros W. pose proof (sha512_iff [private]) as I. cbn [concat] in I. rewrite app_nil_r in I. unfold std_secret. split.
  - intros (d & Hd & -> & ->). apply I in Hd; [|now apply wf1]. subst d. exact (conj eq_refl eq_refl).
  - intros [-> ->]. exists (sha3_512 [private]). split; [apply I; [now apply wf1|reflexivity]|]. exact (conj eq_refl eq_refl).
Qed.
#[local] Opaque secret_scalar enc_point zmul q25519 Bpt sha3_512 sha3_256.
Lemma prefix_wf private : wf_bytes private -> wf_bytes (skipn 32 (sha3_512 [private])).
Proof. intros W. apply wf_skipn. apply (sha3_512_hash_ok [private] (wf1 _ W)). Qed.

Lemma sha512_two x y d : wf_bytes x -> wf_bytes y -> is_SHA3_512 (x ++ y) d <-> d = sha3_512 [x; y].
Proof.
  intros Wx Wy. pose proof (sha512_iff [x; y] d (Forall_cons _ Wx (Forall_cons _ Wy (Forall_nil _)))) as I. cbn [concat] in I.
  rewrite app_nil_r in I. exact I.
Qed.
Lemma sha512_three x y z d : wf_bytes x -> wf_bytes y -> wf_bytes z -> is_SHA3_512 (x ++ y ++ z) d <-> d = sha3_512 [x; y; z].
Proof.
  intros Wx Wy Wz. pose proof (sha512_iff [x; y; z] d (Forall_cons _ Wx (Forall_cons _ Wy (Forall_cons _ Wz (Forall_nil _))))) as I. cbn [concat] in I.
  rewrite app_nil_r in I. exact I.
Qed.

(** ** Keys *)
Lemma std_public_iff k pub : wf_bytes (pk_raw k) -> derive_public_key sha3_512 k = Ok pub <-> std_public (pk_raw k) pub.
Proof.
  intros W. destruct (derive_total sha3_512 sha3_512_hash_ok k W) as (E & _). rewrite E. split.
  - intros X. assert (public_key_of sha3_512 (pk_raw k) = pub) as <- by congruence.
    exists (secret_scalar sha3_512 (pk_raw k)), (skipn 32 (sha3_512 [pk_raw k])). split; [apply std_secret_iff; [exact W|exact (conj eq_refl eq_refl)]|exact eq_refl].
  - intros (a & pre & HS & ->). apply std_secret_iff in HS; [|exact W]. destruct HS as [-> _]. exact eq_refl.
Qed.

(** ** Signatures *)
Lemma std_signature_iff private pub m sig : wf_bytes private -> wf_bytes pub -> wf_bytes m ->
  std_signature private pub m sig <-> sig = sig_R sha3_512 private m ++ le_bytes 32 (sig_S sha3_512 private pub m).
Proof.
  intros Wk Wp Wm.
  assert (LR : wf_bytes (sig_R sha3_512 private m)) by apply enc_point_wf.
  pose proof (fun d => sha512_two (skipn 32 (sha3_512 [private])) m d (prefix_wf _ Wk) Wm) as I1.
  pose proof (fun d => sha512_three (sig_R sha3_512 private m) pub m d LR Wp Wm) as I2.
  split.
  - intros (a & pre & dr & dh & HS & Hr & Hh). cbv zeta in Hh. apply std_secret_iff in HS; [|exact Wk]. destruct HS as [-> ->].
    apply I1 in Hr. subst dr. destruct Hh as [Hh ->]. apply I2 in Hh. subst dh. exact eq_refl.
  - intros ->. exists (secret_scalar sha3_512 private), (skipn 32 (sha3_512 [private])), (sha3_512 [skipn 32 (sha3_512 [private]); m]), (sha3_512 [sig_R sha3_512 private m; pub; m]).
    cbv zeta. split; [apply std_secret_iff; [exact Wk|exact (conj eq_refl eq_refl)]|]. split; [apply I1; exact eq_refl|]. split; [apply I2; exact eq_refl|exact eq_refl].
Qed.
Lemma std_sign k pub m sg : wf_bytes (pk_raw k) -> wf_bytes pub -> wf_bytes m -> sign sha3_512 (KeyPair (Some k) pub) m = Ok sg ->
  forall x, std_signature (pk_raw k) pub m x <-> x = sR sg ++ sS sg.
Proof.
  intros Wk Wp Wm E x. destruct (sign_equations sha3_512 sha3_512_hash_ok k m pub sg Wk Wm Wp E) as (a & r & h & Ea & Er & ER & Eh & ES).
  rewrite std_signature_iff by assumption. rewrite ES, ER. rewrite ER in Eh. subst a r h. reflexivity.
Qed.
Lemma std_accepted private pub m sig : wf_bytes private -> wf_bytes m -> std_public private pub -> std_signature private pub m sig ->
  low64 (le_val (skipn 32 sig)) <> 0 -> low64 (le_val (skipn 32 sig)) <> low64 q25519 ->
  verify sha3_512 (KeyPair None pub) m (Sig (firstn 32 sig) (skipn 32 sig)) = Ok true.
Proof.
  intros Wk Wm P S N0 Nq. set (k := PrivKey (be_val private) private). 
  assert (Wp : wf_bytes pub) by (destruct P as (a & pre & _ & ->); apply enc_point_wf).
  assert (Dk : derive_public_key sha3_512 k = Ok pub) by now apply std_public_iff.
  assert (Pb : pub = public_key_of sha3_512 private) by (destruct (derive_total sha3_512 sha3_512_hash_ok k Wk) as (E & _); change (pk_raw k) with private in E; congruence).
  apply std_signature_iff in S; [|assumption..].
  assert (LR : length (sig_R sha3_512 private m) = 32%nat) by apply enc_point_length.
  assert (E1 : firstn 32 sig = sig_R sha3_512 private m) by (rewrite S, firstn_app, LR, Nat.sub_diag, firstn_O, app_nil_r; apply firstn_all2; lia).
  assert (E2 : skipn 32 sig = le_bytes 32 (sig_S sha3_512 private pub m)) by (rewrite S, skipn_app, LR, Nat.sub_diag, skipn_all2 by lia; reflexivity).
  assert (B : 0 <= sig_S sha3_512 private pub m < q25519) by (apply Z.mod_pos_bound; reflexivity).
  assert (V : le_val (le_bytes 32 (sig_S sha3_512 private pub m)) = sig_S sha3_512 private pub m).
  { rewrite le_bytes_val. apply Z.mod_small. assert (q25519 < 256 ^ Z.of_nat 32) by reflexivity. lia. }
  rewrite E2, V in N0, Nq.
  destruct (sign_total sha3_512 sha3_512_hash_ok k m pub Wk Wm Wp) as [(sg & Es & _)|F].
  - pose proof (proj1 (std_sign k pub m sg Wk Wp Wm Es sig)) as X. specialize (X (proj2 (std_signature_iff private pub m sig Wk Wp Wm) S)).
    destruct (sign_equations sha3_512 sha3_512_hash_ok k m pub sg Wk Wm Wp Es) as (_ & r & _ & _ & _ & ER & _ & _).
    assert (LsR : length (sR sg) = 32%nat) by (rewrite ER; apply enc_point_length).
    assert (Esg : Sig (firstn 32 sig) (skipn 32 sig) = sg).
    { rewrite X, firstn_app, skipn_app, LsR, Nat.sub_diag, firstn_O, app_nil_r, skipn_O, (firstn_all2 (sR sg)), (skipn_all2 (sR sg)) by lia. now destruct sg. }
    rewrite Esg. assert (K : new_key_pair sha3_512 (Some k) None = Ok (KeyPair (Some k) pub)).
    { rewrite (new_key_pair_derived sha3_512 sha3_512_hash_ok k Wk). unfold derived. change (pk_raw k) with private. now rewrite <- Pb. }
    destruct (sign_verify_pub sha3_512 sha3_512_hash_ok k m _ sg Wk Wm K Es) as (kp' & Ek & Ev). cbn [kp_pub] in Ek.
    assert (kp' = KeyPair None pub) as <-; [|exact Ev].
    { unfold new_key_pair in Ek. destruct (is_key_compressed pub) in Ek; congruence. }
  - apply (sign_fails_iff sha3_512 sha3_512_hash_ok k m pub Wk Wm Wp) in F. change (pk_raw k) with private in F. destruct F; contradiction.
Qed.
Lemma std_verify_any kp m sg : wf_bytes (kp_pub kp) -> wf_bytes m -> wf_bytes (sR sg) -> wf_bytes (sS sg) ->
  length (kp_pub kp) = 32%nat \/ length (kp_pub kp) = 64%nat -> (32 <= length (sS sg))%nat ->
  exists b, verify sha3_512 kp m sg = Ok b /\ (b = true <->
    (low64 (le_val (sS sg)) <> 0 /\ low64 (le_val (sS sg)) <> low64 q25519) /\
    kp_pub kp <> all_zero 32 /\
    exists A dh, denotes (firstn 32 (kp_pub kp)) A /\ is_SHA3_512 (sR sg ++ kp_pub kp ++ m) dh /\
      sR sg = enc_point (psub (zmul (double_scalar (le_val (firstn 32 (sS sg)))) Bpt) (zmul (le_val dh mod q25519) A))).
Proof.
  intros Wp Wm WR WS Lp LS. destruct (verify_every sha3_512 sha3_512_hash_ok kp m sg Wp Wm WR WS Lp LS) as (b & E & I). exists b. split; [exact E|].
  pose proof (fun d => sha512_three (sR sg) (kp_pub kp) m d WR Wp Wm) as J.
  rewrite I. split; intros (X & Y & Z); (split; [exact X|split; [exact Y|]]).
  - destruct Z as (A & DA & EA). exists A, (sha3_512 [sR sg; kp_pub kp; m]). split; [exact DA|]. split; [now apply J|exact EA].
  - destruct Z as (A & dh & DA & Hd & EA). apply J in Hd. subst dh. exists A. split; [exact DA|exact EA].
Qed.
Lemma std_verify kp m sg : wf_bytes (kp_pub kp) -> wf_bytes m -> wf_bytes (sR sg) -> wf_bytes (sS sg) ->
  length (kp_pub kp) = 32%nat -> length (sS sg) = 32%nat -> le_val (sS sg) <= 2 ^ 255 ->
  exists b, verify sha3_512 kp m sg = Ok b /\ (b = true <->
    (low64 (le_val (sS sg)) <> 0 /\ low64 (le_val (sS sg)) <> low64 q25519) /\
    kp_pub kp <> all_zero 32 /\
    exists A dh, denotes (kp_pub kp) A /\ is_SHA3_512 (sR sg ++ kp_pub kp ++ m) dh /\
      sR sg = enc_point (psub (zmul (le_val (sS sg)) Bpt) (zmul (le_val dh mod q25519) A))).
Proof.
  intros Wp Wm WR WS Lp LS B. destruct (verify_exact sha3_512 sha3_512_hash_ok kp m sg Wp Wm WR WS Lp LS B) as (b & E & I). exists b. split; [exact E|].
  pose proof (fun d => sha512_three (sR sg) (kp_pub kp) m d WR Wp Wm) as J.
  rewrite I. split; intros (X & Y & Z); (split; [exact X|split; [exact Y|]]).
  - destruct Z as (A & DA & EA). exists A, (sha3_512 [sR sg; kp_pub kp; m]). split; [exact DA|]. split; [now apply J|exact EA].
  - destruct Z as (A & dh & DA & Hd & EA). apply J in Hd. subst dh. exists A. split; [exact DA|exact EA].
Qed.

(** ** Encrypted messages *)
Lemma xors_block a b : block a -> block b -> block (xors a b).
Proof. rewrite xors_eq. apply xor_block. Qed.
Lemma block_of (l : bytes) i : wf_bytes l -> (16 * i + 16 <= length l)%nat -> block (block_at l i).
Proof. intros W L. split; [apply wf_firstn, wf_skipn, W|]. unfold block_at. rewrite firstn_length, skipn_length. lia. Qed.
Lemma whole_block (l : bytes) i : (length l mod 16 = 0)%nat -> (16 * i < length l)%nat -> (16 * i + 16 <= length l)%nat.
Proof. intros A L. apply aligned_16 in A. lia. Qed.
Lemma chain_blocks iv p c : block iv -> wf_bytes p -> length c = length p -> (length p mod 16 = 0)%nat ->
  (forall i, (16 * i < length p)%nat -> block (xors (block_at p i) (block_at (iv ++ c) i)) -> block (block_at c i)) ->
  forall i, (16 * i < length p)%nat -> block (xors (block_at p i) (block_at (iv ++ c) i)).
Proof.
  intros Bi Wp L A H. induction i as [|i IH]; intros I; (apply xors_block; [apply block_of; [exact Wp|now apply whole_block]|]).
  - rewrite block_head by apply Bi. exact Bi.
  - rewrite block_tail by apply Bi. apply H; [lia|]. apply IH. lia.
Qed.
Lemma std_cbc key iv p c : wf_bytes key -> length key = 32%nat -> block iv -> wf_bytes p -> (length p mod 16 = 0)%nat ->
  (length c = length p /\ forall i, (16 * i < length p)%nat -> is_AES256 key (xors (block_at p i) (block_at (iv ++ c) i)) (block_at c i)) <->
  cbc aes_encrypt key iv p c.
Proof.
  intros Wk Lk Bi Wp A. unfold cbc. split; intros [L K]; (split; [exact L|]); intros i I.
  - apply (aes_iff key _ _ Wk Lk); [|now apply K]. apply chain_blocks; try assumption. intros j J B.
    pose proof (proj1 (aes_iff key _ _ Wk Lk B) (K j J)) as E. rewrite E. apply (aes_cipher_ok key Wk Lk _ B).
  - apply (aes_iff key _ _ Wk Lk); [|now apply K]. apply chain_blocks; try assumption. intros j J B. rewrite K by exact J.
    apply (aes_cipher_ok key Wk Lk _ B).
Qed.
Lemma std_key_iff private other P salt key : wf_bytes private -> denotes other P -> wf_bytes salt -> length salt = 32%nat ->
  std_key private other salt key <-> key = agreed_key sha3_512 sha3_256 private P salt.
Proof.
  intros Wk D Ws Ls. unfold std_key, agreed_key.
  assert (I : forall a, is_SHA3_256 (xors (enc_point (zmul a P)) salt) key <-> key = sha3_256 (xors (enc_point (zmul a P)) salt)).
  { intros a. apply sha256_iff. rewrite xors_eq. apply xor_wf; [apply enc_point_wf|exact Ws]. }
  split.
  - intros (a & pre & Q & HS & DQ & HK). rewrite (denotes_unique _ _ _ DQ D) in HK. apply I in HK.
    apply std_secret_iff in HS; [|exact Wk]. destruct HS as [-> _]. exact HK.
  - intros E. exists (secret_scalar sha3_512 private), (skipn 32 (sha3_512 [private])), P.
    split; [apply std_secret_iff; [exact Wk|exact (conj eq_refl eq_refl)]|]. split; [exact D|]. apply I. exact E.
Qed.
Lemma pkcs7_wf m p : wf_bytes m -> pkcs7 m p -> wf_bytes p /\ (length p mod 16 = 0)%nat.
Proof.
  intros W H. split; [rewrite pkcs7_iff in H; subst p; now apply pad_wf|]. destruct H as (n & _ & _ & A). exact A.
Qed.
(** the description in the words of C66 *)
Lemma std_message_iff private other P salt iv m out : wf_bytes private -> denotes other P -> wf_bytes salt -> length salt = 32%nat -> block iv -> wf_bytes m ->
  std_message private other salt iv m out <->
  exists p c, pkcs7 m p /\ cbc aes_encrypt (agreed_key sha3_512 sha3_256 private P salt) iv p c /\ out = salt ++ iv ++ c.
Proof.
  intros Wk D Ws Ls Bi Wm.
  destruct (shared_wf sha3_512 sha3_256 sha3_256_hash_ok private P salt Ws Ls) as [Wkey Lkey].
  change (sha3_256 (xor_bytes (enc_point (zmul (secret_scalar sha3_512 private) P)) salt)) with (agreed_key sha3_512 sha3_256 private P salt) in Wkey, Lkey.
  split.
  - intros (key & p & c & HK & HP & L & HC & ->). apply (std_key_iff private other P) in HK; try assumption. subst key.
    destruct (pkcs7_wf m p Wm HP) as [Wp Ap]. exists p, c. split; [exact HP|]. split; [|exact eq_refl]. apply std_cbc; try assumption. exact (conj L HC).
  - intros (p & c & HP & HC & ->). destruct (pkcs7_wf m p Wm HP) as [Wp Ap]. apply std_cbc in HC; try assumption. destruct HC as [L HC].
    exists (agreed_key sha3_512 sha3_256 private P salt), p, c. split; [apply (std_key_iff private other P); try assumption; exact eq_refl|].
    split; [exact HP|]. split; [exact L|]. split; [exact HC|exact eq_refl].
Qed.
Lemma split48 (l : bytes) : (48 <= length l)%nat -> length (firstn 32 l) = 32%nat /\ length (firstn 16 (skipn 32 l)) = 16%nat /\
  firstn 32 l ++ firstn 16 (skipn 32 l) = firstn 48 l.
Proof.
  intros L. split; [apply firstn_length_le; lia|]. split; [apply firstn_length_le; rewrite skipn_length; lia|].
  change 48%nat with (32 + 16)%nat. clear. revert l.
  assert (X : forall n (l : bytes), firstn n l ++ firstn 16 (skipn n l) = firstn (n + 16) l).
  { induction n as [|n IH]; intros [|y l]; try reflexivity. cbn [firstn skipn app Nat.add]. f_equal. apply IH. }
  intros l. apply X.
Qed.
Lemma std_encrypt k spub rpriv rpub P src m : wf_bytes (pk_raw k) -> wf_bytes rpub -> length rpub = 32%nat -> denotes rpub P ->
  wf_bytes src -> (48 <= length src)%nat -> wf_bytes m ->
  exists out, encrypt sha3_512 sha3_256 aes_encrypt (new_block_cipher (KeyPair (Some k) spub) (KeyPair rpriv rpub)) src m = Ok (out, skipn 48 src) /\
    forall x, std_message (pk_raw k) rpub (firstn 32 src) (firstn 16 (skipn 32 src)) m x <-> x = out.
Proof.
  intros Wk Wr Lr D Ws Ls Wm. destruct (split48 src Ls) as (L1 & L2 & L3).
  destruct (encrypt_bytes sha3_512 sha3_512_hash_ok sha3_256 sha3_256_hash_ok aes_encrypt aes_decrypt aes_cipher_ok k spub rpriv rpub P src m Wk Wr Lr D Ws Ls Wm)
    as (p & c & HP & HC & E). exists (firstn 48 src ++ c). split; [exact E|]. intros x.
  assert (Bi : block (firstn 16 (skipn 32 src))) by (split; [apply wf_firstn, wf_skipn, Ws|exact L2]).
  assert (W1 : wf_bytes (firstn 32 src)) by apply wf_firstn, Ws.
  rewrite (std_message_iff (pk_raw k) rpub P) by assumption.
  split.
  - intros (p' & c' & HP' & HC' & ->). destruct (one_ciphertext _ _ _ _ _ _ _ _ L2 HP HP' HC HC') as [<- <-]. now rewrite app_assoc, L3.
  - intros ->. exists p, c. split; [exact HP|]. split; [exact HC|]. now rewrite app_assoc, L3.
Qed.

(** CBC there and back *)
Lemma cbc_there key iv p c : wf_bytes key -> length key = 32%nat -> block iv -> wf_bytes p -> (length p mod 16 = 0)%nat ->
  cbc aes_encrypt key iv p c -> cbc_back aes_decrypt key iv c p.
Proof.
  intros Wk Lk Bi Wp A [L K]. split; [now symmetry|]. intros i I. rewrite L in I.
  assert (B : forall i, (16 * i < length p)%nat -> block (xors (block_at p i) (block_at (iv ++ c) i))).
  { apply chain_blocks; try assumption. intros j J B. rewrite K by exact J. apply (aes_cipher_ok key Wk Lk _ B). }
  assert (Bc : block (block_at (iv ++ c) i)).
  { destruct i as [|i]; [rewrite block_head by apply Bi; exact Bi|]. rewrite block_tail by apply Bi.
    rewrite K by lia. apply (aes_cipher_ok key Wk Lk). apply B. lia. }
  rewrite K by exact I. destruct (aes_cipher_ok key Wk Lk _ (B i I)) as (_ & _ & -> & _). rewrite !xors_eq. symmetry. apply xor_twice.
  rewrite (proj2 Bc). apply (block_of p i Wp). now apply whole_block.
Qed.
Lemma cbc_return key iv p c : wf_bytes key -> length key = 32%nat -> block iv -> wf_bytes c -> (length c mod 16 = 0)%nat ->
  cbc_back aes_decrypt key iv c p -> cbc aes_encrypt key iv p c.
Proof.
  intros Wk Lk Bi Wc A [L K]. split; [now symmetry|]. intros i I. rewrite L in I.
  assert (Bc : block (block_at c i)) by (apply block_of; [exact Wc|now apply whole_block]).
  assert (Bp : block (block_at (iv ++ c) i)).
  { destruct i as [|i]; [rewrite block_head by apply Bi; exact Bi|]. rewrite block_tail by apply Bi.
    apply block_of; [exact Wc|]. apply whole_block; [exact A|lia]. }
  rewrite K by exact I. destruct (aes_cipher_ok key Wk Lk _ Bc) as (_ & Bd & _ & E). rewrite !xors_eq, xor_twice; [now symmetry|].
  rewrite (proj2 Bd), (proj2 Bp). reflexivity.
Qed.
Lemma std_decrypt k rpub spriv spub P input m : wf_bytes (pk_raw k) -> length rpub = 32%nat -> wf_bytes spub -> length spub = 32%nat ->
  denotes spub P -> wf_bytes input -> (64 <= length input)%nat -> (length input mod 16 = 0)%nat -> wf_bytes m ->
  decrypt sha3_512 sha3_256 aes_decrypt (new_block_cipher (KeyPair spriv spub) (KeyPair (Some k) rpub)) input = Ok m <->
  std_message (pk_raw k) spub (firstn 32 input) (firstn 16 (skipn 32 input)) m input.
Proof.
  intros Wk Lr Ws Ls D Wi Li Ai Wm. destruct (split48 input ltac:(lia)) as (L1 & L2 & L3).
  pose proof (decrypt_bytes sha3_512 sha3_512_hash_ok sha3_256 sha3_256_hash_ok aes_encrypt aes_decrypt aes_cipher_ok k rpub spriv spub P input Wk Lr Ws Ls D Wi Li Ai) as X.
  cbv zeta in X. destruct X as (p & HB & I & _). rewrite I. clear I.
  assert (Bi : block (firstn 16 (skipn 32 input))) by (split; [apply wf_firstn, wf_skipn, Wi|exact L2]).
  assert (W1 : wf_bytes (firstn 32 input)) by apply wf_firstn, Wi.
  assert (Ac : (length (skipn 48 input) mod 16 = 0)%nat).
  { rewrite skipn_length. apply aligned_16 in Ai. rewrite Ai.
    replace (16 * (length input / 16) - 48)%nat with ((length input / 16 - 3) * 16)%nat by lia. apply Nat.mod_mul. discriminate. }
  destruct (shared_wf sha3_512 sha3_256 sha3_256_hash_ok (pk_raw k) P (firstn 32 input) W1 L1) as [Wkey Lkey].
  change (sha3_256 (xor_bytes (enc_point (zmul (secret_scalar sha3_512 (pk_raw k)) P)) (firstn 32 input))) with (agreed_key sha3_512 sha3_256 (pk_raw k) P (firstn 32 input)) in Wkey, Lkey.
  rewrite (std_message_iff (pk_raw k) spub P) by assumption. split.
  - intros HP. exists p, (skipn 48 input). split; [exact HP|]. split; [|now rewrite app_assoc, L3, firstn_skipn].
    apply cbc_return; try assumption. apply wf_skipn, Wi.
  - intros (p' & c & HP & HC & E).
    assert (Ec : skipn 48 input = c).
    { rewrite <- (firstn_skipn 48 input) in E at 1. rewrite app_assoc, L3 in E. now apply app_inv_head in E. }
    subst c. destruct (pkcs7_wf m p' Wm HP) as [Wp' Ap']. apply cbc_there in HC; try assumption.
    rewrite (cbc_back_unique _ _ _ _ _ _ Ac HB HC). exact HP.
Qed.

(** ** Both ends *)
Lemma zmul_swap a b P : zmul a (zmul b P) = zmul b (zmul a P).
Proof. rewrite <- !zmul_mul. f_equal. apply Z.mul_comm. Qed.
Lemma std_public_point private pub : wf_bytes private -> std_public private pub ->
  pub = enc_point (zmul (secret_scalar sha3_512 private) Bpt) /\ wf_bytes pub /\ length pub = 32%nat /\
  denotes pub (zmul (secret_scalar sha3_512 private) Bpt).
Proof.
  intros W (a & pre & HS & ->). apply std_secret_iff in HS; [|exact W]. destruct HS as [-> _].
  split; [exact eq_refl|]. split; [apply enc_point_wf|]. split; [apply enc_point_length|apply enc_denotes].
Qed.
Lemma std_both_ends a b puba pubb salt iv m out : wf_bytes a -> wf_bytes b -> std_public a puba -> std_public b pubb ->
  wf_bytes salt -> length salt = 32%nat -> block iv -> wf_bytes m ->
  std_message a pubb salt iv m out <-> std_message b puba salt iv m out.
Proof.
  intros Wa Wb Pa Pb Ws Ls Bi Wm. destruct (std_public_point a puba Wa Pa) as (_ & _ & _ & Da). destruct (std_public_point b pubb Wb Pb) as (_ & _ & _ & Db).
  rewrite (std_message_iff a pubb _ salt iv m out Wa Db Ws Ls Bi Wm).
  rewrite (std_message_iff b puba _ salt iv m out Wb Da Ws Ls Bi Wm).
  unfold agreed_key. rewrite zmul_swap. reflexivity.
Qed.
Lemma firstn_app_exact {A} n (x y : list A) : length x = n -> firstn n (x ++ y) = x.
Proof. intros <-. rewrite firstn_app, Nat.sub_diag, firstn_O, app_nil_r. apply firstn_all. Qed.
Lemma skipn_app_exact {A} n (x y : list A) : length x = n -> skipn n (x ++ y) = y.
Proof. intros <-. rewrite skipn_app, Nat.sub_diag, skipn_O, skipn_all. reflexivity. Qed.
Lemma skipn_of_skipn {A} a b (l : list A) : skipn a (skipn b l) = skipn (b + a) l.
Proof. revert l. induction b as [|b IH]; intros [|x l]; try reflexivity; [now rewrite !skipn_nil|apply IH]. Qed.
Lemma cbc_wf key iv p c : wf_bytes key -> length key = 32%nat -> block iv -> wf_bytes p -> (length p mod 16 = 0)%nat ->
  cbc aes_encrypt key iv p c -> wf_bytes c.
Proof.
  intros Wk Lk Bi Wp A [L K].
  assert (B : forall i, (16 * i < length p)%nat -> block (block_at c i)).
  { intros i I. rewrite K by exact I. apply (aes_cipher_ok key Wk Lk). revert i I. apply chain_blocks; try assumption.
    intros j J Bj. rewrite K by exact J. apply (aes_cipher_ok key Wk Lk _ Bj). }
  rewrite <- L in A, B. clear - A B. apply aligned_16 in A. remember (length c / 16)%nat as n. clear Heqn. revert c A B.
  induction n as [|n IH]; intros c A B; [destruct c; [constructor|discriminate A]|].
  rewrite <- (firstn_skipn 16 c). apply Forall_app. split.
  - apply (B 0%nat). lia.
  - apply IH; [rewrite skipn_length; lia|]. intros i I. rewrite skipn_length in I. specialize (B (S i)).
    unfold block_at in *. rewrite skipn_of_skipn. replace (16 + 16 * i)%nat with (16 * S i)%nat by lia. apply B. lia.
Qed.
Lemma std_message_shape private other salt iv m out : wf_bytes private -> (exists P, denotes other P) -> wf_bytes salt -> length salt = 32%nat -> block iv -> wf_bytes m ->
  std_message private other salt iv m out ->
  wf_bytes out /\ (64 <= length out)%nat /\ (length out mod 16 = 0)%nat /\ firstn 32 out = salt /\ firstn 16 (skipn 32 out) = iv.
Proof.
  intros Wk [P D] Ws Ls Bi Wm H. apply (std_message_iff private other P) in H; try assumption. destruct H as (p & c & HP & HC & ->).
  destruct (shared_wf sha3_512 sha3_256 sha3_256_hash_ok private P salt Ws Ls) as [Wkey Lkey].
  change (sha3_256 (xor_bytes (enc_point (zmul (secret_scalar sha3_512 private) P)) salt)) with (agreed_key sha3_512 sha3_256 private P salt) in Wkey, Lkey.
  destruct (pkcs7_wf m p Wm HP) as [Wp Ap]. pose proof (cbc_wf _ _ _ _ Wkey Lkey Bi Wp Ap HC) as Wc. destruct HC as [Lc _].
  destruct Bi as [Wi Li]. destruct HP as (n & N1 & Ep & _).
  assert (Lp : (16 <= length p)%nat).
  { apply aligned_16 in Ap. enough (0 < length p)%nat by lia. subst p. rewrite app_length, repeat_length. lia. }
  split; [apply Forall_app; split; [exact Ws|apply Forall_app; split; [exact Wi|exact Wc]]|].
  split; [rewrite !app_length, Lc, Ls, Li; lia|].
  split; [rewrite !app_length, Lc, Ls, Li; rewrite Nat.add_assoc, Nat.add_mod, Ap by discriminate; reflexivity|].
  split; [apply firstn_app_exact, Ls|]. rewrite skipn_app_exact by exact Ls. apply firstn_app_exact, Li.
Qed.
(** an encrypted message made by anybody who holds the private key [a] opens at the holder of [k] *)
Lemma std_received a puba k spriv rpub salt iv m out : wf_bytes a -> std_public a puba -> wf_bytes (pk_raw k) -> std_public (pk_raw k) rpub ->
  wf_bytes salt -> length salt = 32%nat -> wf_bytes iv -> length iv = 16%nat -> wf_bytes m ->
  std_message a rpub salt iv m out ->
  decrypt sha3_512 sha3_256 aes_decrypt (new_block_cipher (KeyPair spriv puba) (KeyPair (Some k) rpub)) out = Ok m.
Proof.
  intros Wa Pa Wk Pk Ws Ls Wi Li Wm H. assert (Bi : block iv) by exact (conj Wi Li).
  destruct (std_public_point a puba Wa Pa) as (_ & W1 & L1 & D1). destruct (std_public_point _ rpub Wk Pk) as (_ & W2 & L2 & D2).
  destruct (std_message_shape a rpub salt iv m out Wa (ex_intro _ _ D2) Ws Ls Bi Wm H) as (Wo & Lo & Ao & E1 & E2).
  apply (std_decrypt k rpub spriv puba _ out m Wk L2 W1 L1 D1 Wo Lo Ao Wm). rewrite E1, E2.
  apply (std_both_ends a (pk_raw k) puba rpub); assumption.
Qed.
(** an encrypted message made by the library is, for its recipient, the standards' *)
Lemma std_sent k spub rpriv b rpub src m : wf_bytes (pk_raw k) -> std_public (pk_raw k) spub -> wf_bytes b -> std_public b rpub ->
  wf_bytes src -> (48 <= length src)%nat -> wf_bytes m ->
  exists out, encrypt sha3_512 sha3_256 aes_encrypt (new_block_cipher (KeyPair (Some k) spub) (KeyPair rpriv rpub)) src m = Ok (out, skipn 48 src) /\
    forall x, std_message b spub (firstn 32 src) (firstn 16 (skipn 32 src)) m x <-> x = out.
Proof.
  intros Wk Pk Wb Pb Ws Ls Wm. destruct (std_public_point b rpub Wb Pb) as (_ & W2 & L2 & D2).
  destruct (std_encrypt k spub rpriv rpub _ src m Wk W2 L2 D2 Ws Ls Wm) as (out & E & I). exists out. split; [exact E|]. intros x. rewrite <- I.
  destruct (split48 src Ls) as (L3 & L4 & _).
  apply (std_both_ends b (pk_raw k) rpub spub); try assumption; [apply wf_firstn, Ws|]. split; [apply wf_firstn, wf_skipn, Ws|exact L4].
Qed.


(** ** There are such keys, signatures and messages *)
Lemma std_exist a b src m : wf_bytes a -> wf_bytes b -> wf_bytes src -> (48 <= length src)%nat -> wf_bytes m ->
  exists puba pubb sig out, std_public a puba /\ std_public b pubb /\ (exists P, denotes pubb P) /\
    std_signature a puba m sig /\ std_message a pubb (firstn 32 src) (firstn 16 (skipn 32 src)) m out.
Proof.
  intros Wa Wb Ws Ls Wm. set (ka := PrivKey (be_val a) a). set (kb := PrivKey (be_val b) b).
  destruct (derive_total sha3_512 sha3_512_hash_ok ka Wa) as (Ea & _). destruct (derive_total sha3_512 sha3_512_hash_ok kb Wb) as (Eb & _).
  apply (std_public_iff ka _ Wa) in Ea. apply (std_public_iff kb _ Wb) in Eb.
  destruct (std_public_point _ _ Wa Ea) as (_ & W1 & _ & _). destruct (std_public_point _ _ Wb Eb) as (_ & W2 & L2 & D2).
  destruct (std_encrypt ka [] None _ _ src m Wa W2 L2 D2 Ws Ls Wm) as (out & _ & I).
  eexists _, _, _, out. split; [exact Ea|]. split; [exact Eb|]. split; [exact (ex_intro _ _ D2)|].
  split; [apply (std_signature_iff _ _ _ _ Wa W1 Wm); exact eq_refl|]. apply I. exact eq_refl.
Qed.
Lemma ex_std_bytes : wf_bytes [1; 2; 255] /\ (wf_bytes (repeat 9 48) /\ (48 <= length (repeat 9 48))%nat).
Proof.
  split; [repeat constructor; lia|]. split; [|rewrite repeat_length; lia]. apply Forall_forall. intros x H. apply repeat_spec in H. rewrite H. split; [discriminate|reflexivity].
Qed.
