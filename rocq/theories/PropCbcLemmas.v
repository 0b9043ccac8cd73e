(** Lemmas behind C74 (what blocks of ciphertexts tell about messages). *)
From Coq Require Import List ZArith Lia Bool.
From Verif Require Import GoBase FieldModel FieldSpec ByteLemmas Fp Curve BasePoint GroupModel GroupSpec
  PointCodec PropFieldLemmas ApiModel ApiSpec ApiProofs VerifyProofs PropSigLemmas CipherProofs PropCipherLemmas ExampleLemmas PadSpec PadProofs CipherSpec PropFormatLemmas.
Import ListNotations.
Open Scope Z_scope.

(** ** xor of lists *)
Lemma lxor_swap a b c d : Z.lxor a b = Z.lxor c d <-> Z.lxor a c = Z.lxor b d.
Proof.
  assert (I : forall a b c d, Z.lxor a b = Z.lxor c d -> Z.lxor a c = Z.lxor b d).
  { clear. intros a b c d E. transitivity (Z.lxor (Z.lxor a b) (Z.lxor b c)).
    - rewrite Z.lxor_assoc. f_equal. rewrite <- Z.lxor_assoc, Z.lxor_nilpotent, Z.lxor_0_l. reflexivity.
    - rewrite E. rewrite (Z.lxor_comm c d), (Z.lxor_comm b c), Z.lxor_assoc, <- (Z.lxor_assoc c c b), Z.lxor_nilpotent, Z.lxor_0_l. apply Z.lxor_comm. }
  split; apply I.
Qed.
Lemma xors_swap a : forall b c d, length b = length a -> length c = length a -> length d = length a ->
  (xors a b = xors c d <-> xors a c = xors b d).
Proof.
  induction a as [|x a IH]; intros [|y b] [|z c] [|w d] Lb Lc Ld; try discriminate; [reflexivity|].
  cbn [length] in *. injection Lb as Lb. injection Lc as Lc. injection Ld as Ld. cbn [xors].
  specialize (IH b c d Lb Lc Ld). pose proof (lxor_swap x y z w) as Q. split; intros E; injection E as E1 E2; f_equal; tauto.
Qed.
Lemma xors_same_r a : forall b c, length b = length a -> length c = length a -> (xors a b = xors c b <-> a = c).
Proof.
  induction a as [|x a IH]; intros [|y b] [|z c] Lb Lc; try discriminate; [tauto|].
  cbn [length] in *. injection Lb as Lb. injection Lc as Lc. cbn [xors]. specialize (IH b c Lb Lc). split.
  - intros E. injection E as E1 E2. f_equal; [|tauto]. apply lxor_swap in E1. rewrite Z.lxor_nilpotent in E1. now apply Z.lxor_eq.
  - intros E. injection E as -> ->. reflexivity.
Qed.

(** ** blocks *)
Lemma block_at_block b i : wf_bytes b -> (16 * i + 16 <= length b)%nat -> block (block_at b i).
Proof.
  intros W L. unfold block_at. split; [apply wf_firstn, wf_skipn, W|]. apply firstn_length_le. rewrite skipn_length. lia.
Qed.
Lemma aligned_next (p : bytes) i : (length p mod 16 = 0)%nat -> (16 * i < length p)%nat -> (16 * i + 16 <= length p)%nat.
Proof. intros A L. apply aligned_16 in A. lia. Qed.
Lemma block_skip b n i : block_at (skipn (16 * n) b) i = block_at b (n + i).
Proof. unfold block_at. rewrite <- skipn_add. do 2 f_equal. lia. Qed.
Lemma block_at_firstn b n i : (i < n)%nat -> block_at (firstn (16 * n) b) i = block_at b i.
Proof.
  intros L. unfold block_at. rewrite skipn_firstn_comm, firstn_firstn. f_equal. lia.
Qed.
Lemma prefix_blocks n a b : (16 * n <= length a)%nat -> (16 * n <= length b)%nat ->
  (firstn (16 * n) a = firstn (16 * n) b <-> forall i, (i < n)%nat -> block_at a i = block_at b i).
Proof.
  intros La Lb. split.
  - intros E i Hi. rewrite <- (block_at_firstn a n i Hi), <- (block_at_firstn b n i Hi), E. reflexivity.
  - intros K. apply (blocks_eq n); [apply firstn_length_le; lia|apply firstn_length_le; lia|].
    intros i Hi. rewrite !block_at_firstn by exact Hi. apply K, Hi.
Qed.
Lemma block_at_app_l a b i : (16 * i + 16 <= length a)%nat -> block_at (a ++ b) i = block_at a i.
Proof.
  intros L. unfold block_at. rewrite skipn_app, firstn_app, skipn_length.
  replace (16 - (length a - 16 * i))%nat with 0%nat by lia. rewrite firstn_O, app_nil_r. reflexivity.
Qed.

Section Mode.
Variables E D : bytes -> bytes -> bytes.
Hypothesis C : cipher_ok E D.
Variable key : bytes.
Hypotheses (Wk : wf_bytes key) (Lk : length key = 32%nat).
Lemma cbc_wf iv p c : block iv -> wf_bytes p -> (length p mod 16 = 0)%nat -> cbc E key iv p c -> wf_bytes c /\ length c = length p.
Proof.
  intros Bi Wp Ap Cc. split; [|apply Cc]. pose proof (aligned_16 p Ap) as Lp.
  rewrite (cbc_unique E key iv p c (cbc_enc E (length p / 16) key iv p) (proj2 Bi) Ap Cc).
  - apply (cbc_enc_len E D C key Wk Lk _ iv p Bi Wp Lp).
  - apply (cbc_enc_cbc E D C key Wk Lk _ iv p Bi Wp Lp).
Qed.
Lemma cbc_back_cbc iv c p : block iv -> wf_bytes c -> (length c mod 16 = 0)%nat -> cbc_back D key iv c p -> wf_bytes p /\ cbc E key iv p c.
Proof.
  intros Bi Wc Ac B. pose proof (aligned_16 c Ac) as Lc.
  assert (Wp : wf_bytes p).
  { rewrite (cbc_back_unique D key iv c p (cbc_dec D (length c / 16) key iv c) Ac B).
    - apply (cbc_dec_len E D C key Wk Lk _ iv c Bi Wc Lc).
    - apply (cbc_dec_cbc E D C key Wk Lk _ iv c Bi Wc Lc). }
  split; [exact Wp|]. destruct B as [L K]. split; [lia|]. intros i Hi. rewrite L in Hi. rewrite (K i Hi).
  pose proof (aligned_next c i Ac Hi) as Li.
  assert (B1 : block (block_at c i)) by (apply block_at_block; assumption).
  assert (B2 : block (block_at (iv ++ c) i)).
  { apply block_at_block; [|rewrite app_length, (proj2 Bi); lia]. apply Forall_app. split; [apply Bi|exact Wc]. }
  destruct (C key Wk Lk _ B1) as (_ & Bd & _ & Ed). rewrite !xors_eq, xor_twice.
  - symmetry. exact Ed.
  - rewrite (proj2 Bd), (proj2 B2). reflexivity.
Qed.
Lemma E_inj a b : block a -> block b -> (E key a = E key b <-> a = b).
Proof.
  intros Ba Bb. split; [|now intros ->]. intros K.
  destruct (C key Wk Lk a Ba) as (_ & _ & Ea & _). destruct (C key Wk Lk b Bb) as (_ & _ & Eb & _). congruence.
Qed.
Lemma prev_block iv c i : block iv -> wf_bytes c -> (16 * i < length c)%nat -> block (block_at (iv ++ c) i).
Proof.
  intros Bi Wc L. apply block_at_block; [apply Forall_app; split; [apply Bi|exact Wc]|rewrite app_length, (proj2 Bi); lia].
Qed.
Lemma cbc_blocks iv1 p1 c1 iv2 p2 c2 i j : block iv1 -> block iv2 -> wf_bytes p1 -> wf_bytes p2 ->
  (length p1 mod 16 = 0)%nat -> (length p2 mod 16 = 0)%nat -> cbc E key iv1 p1 c1 -> cbc E key iv2 p2 c2 ->
  (16 * i < length p1)%nat -> (16 * j < length p2)%nat ->
  (block_at c1 i = block_at c2 j <->
   xors (block_at p1 i) (block_at p2 j) = xors (block_at (iv1 ++ c1) i) (block_at (iv2 ++ c2) j)).
Proof.
  intros B1 B2 W1 W2 A1 A2 C1 C2 L1 L2.
  destruct (cbc_wf _ _ _ B1 W1 A1 C1) as [Wc1 Lc1]. destruct (cbc_wf _ _ _ B2 W2 A2 C2) as [Wc2 Lc2].
  rewrite (proj2 C1 i L1), (proj2 C2 j L2).
  pose proof (block_at_block p1 i W1 (aligned_next _ _ A1 L1)) as X1. pose proof (block_at_block p2 j W2 (aligned_next _ _ A2 L2)) as X2.
  pose proof (prev_block iv1 c1 i B1 Wc1 ltac:(lia)) as Y1. pose proof (prev_block iv2 c2 j B2 Wc2 ltac:(lia)) as Y2.
  rewrite E_inj by (rewrite xors_eq; apply xor_block; assumption).
  apply xors_swap; rewrite (proj2 X1); [apply Y1|apply X2|apply Y2].
Qed.
Lemma cbc_prefix iv p1 c1 p2 c2 n : block iv -> wf_bytes p1 -> wf_bytes p2 ->
  (length p1 mod 16 = 0)%nat -> (length p2 mod 16 = 0)%nat -> cbc E key iv p1 c1 -> cbc E key iv p2 c2 ->
  (16 * n <= length p1)%nat -> (16 * n <= length p2)%nat ->
  (firstn (16 * n) c1 = firstn (16 * n) c2 <-> firstn (16 * n) p1 = firstn (16 * n) p2).
Proof.
  intros B W1 W2 A1 A2 C1 C2 L1 L2.
  destruct (cbc_wf _ _ _ B W1 A1 C1) as [Wc1 Lc1]. destruct (cbc_wf _ _ _ B W2 A2 C2) as [Wc2 Lc2].
  rewrite !prefix_blocks by lia.
  assert (Prev : forall i, (forall k, (k < i)%nat -> block_at c1 k = block_at c2 k) -> block_at (iv ++ c1) i = block_at (iv ++ c2) i).
  { intros [|i] K; [rewrite !block_head by apply B; reflexivity|]. rewrite !block_tail by apply B. apply K. lia. }
  assert (Step : forall i, (i < n)%nat -> (forall k, (k < i)%nat -> block_at c1 k = block_at c2 k) ->
    (block_at c1 i = block_at c2 i <-> block_at p1 i = block_at p2 i)).
  { intros i Hi K. rewrite (proj2 C1 i), (proj2 C2 i) by lia.
    pose proof (block_at_block p1 i W1 ltac:(lia)) as X1. pose proof (block_at_block p2 i W2 ltac:(lia)) as X2.
    pose proof (prev_block iv c1 i B Wc1 ltac:(lia)) as Y1. pose proof (prev_block iv c2 i B Wc2 ltac:(lia)) as Y2.
    rewrite E_inj by (rewrite xors_eq; apply xor_block; assumption). rewrite <- (Prev i K).
    apply xors_same_r; rewrite (proj2 X1); [apply Y1|apply X2]. }
  split.
  - intros K i Hi. apply (Step i Hi); [intros k Hk; apply K; lia|apply K, Hi].
  - intros K i. induction i as [i IH] using lt_wf_ind. intros Hi. apply (Step i Hi); [intros k Hk; apply IH; lia|apply K, Hi].
Qed.
End Mode.

(** ** messages and their padding *)
Lemma pkcs7_parts m p : pkcs7 m p -> wf_bytes m -> wf_bytes p /\ (length p mod 16 = 0)%nat /\ (length m < length p)%nat /\
  (forall i, (16 * i + 16 <= length m)%nat -> block_at p i = block_at m i) /\
  (forall n, (16 * n <= length m)%nat -> firstn (16 * n) p = firstn (16 * n) m).
Proof.
  intros K W. pose proof (proj1 (pkcs7_iff m p) K) as Ep. destruct K as (n & Rn & -> & A).
  split; [rewrite Ep; apply pad_wf, W|]. split; [exact A|]. split; [rewrite app_length, repeat_length; lia|]. split.
  - intros i L. apply block_at_app_l, L.
  - intros k L. rewrite firstn_app. replace (16 * k - length m)%nat with 0%nat by lia. rewrite firstn_O, app_nil_r. reflexivity.
Qed.
Lemma pkcs7_wf m p : pkcs7 m p -> wf_bytes p -> wf_bytes m.
Proof. intros (n & _ & -> & _) W. apply Forall_app in W. apply W. Qed.
Lemma split_32_48 (b : bytes) : skipn 32 b = firstn 16 (skipn 32 b) ++ skipn 48 b.
Proof. change 48%nat with (32 + 16)%nat. rewrite skipn_add. symmetry. apply firstn_skipn. Qed.
Lemma block_prev b i : block_at (firstn 16 (skipn 32 b) ++ skipn 48 b) i = block_at b (2 + i).
Proof. rewrite <- split_32_48. exact (block_skip b 2 i). Qed.
Lemma block_cur b i : block_at (skipn 48 b) i = block_at b (3 + i).
Proof. exact (block_skip b 3 i). Qed.

Lemma firstn_add {A} a b : forall l : list A, firstn (a + b) l = firstn a l ++ firstn b (skipn a l).
Proof.
  induction a as [|a IH]; intros l; [reflexivity|]. destruct l as [|y l]; cbn [firstn skipn app Nat.add]; [now rewrite firstn_nil|].
  f_equal. apply IH.
Qed.
Section S.
Variable H : list bytes -> bytes.
Hypothesis HH : hash_ok 64 H.
Variable G : bytes -> bytes.
Hypothesis HG : hash1_ok 32 G.
Variables E D : bytes -> bytes -> bytes.
Hypothesis C : cipher_ok E D.

Lemma encrypted k spub rpriv rpub P src m out rest : wf_bytes (pk_raw k) -> wf_bytes rpub -> length rpub = 32%nat -> denotes rpub P ->
  wf_bytes src -> wf_bytes m -> encrypt H G E (new_block_cipher (KeyPair (Some k) spub) (KeyPair rpriv rpub)) src m = Ok (out, rest) ->
  exists p, pkcs7 m p /\ firstn 48 out = firstn 48 src /\ (48 <= length src)%nat /\ firstn 32 out = firstn 32 src /\
    block (firstn 16 (skipn 32 out)) /\ wf_bytes (agreed_key H G (pk_raw k) P (firstn 32 out)) /\
    length (agreed_key H G (pk_raw k) P (firstn 32 out)) = 32%nat /\
    cbc E (agreed_key H G (pk_raw k) P (firstn 32 out)) (firstn 16 (skipn 32 out)) p (skipn 48 out).
Proof.
  intros Wk Wr Lr DP Ws Wm Ee. assert (Ls : (48 <= length src)%nat).
  { destruct (Nat.le_gt_cases 48 (length src)) as [|L]; [assumption|exfalso].
    destruct (encrypt_errors H HH G E (KeyPair (Some k) spub) rpriv rpub src m Wr) as (E1 & _ & _ & E4).
    destruct (Nat.le_gt_cases 32 (length src)).
    - rewrite (E4 k P eq_refl Wk) in Ee by (assumption || lia). discriminate Ee.
    - rewrite E1 in Ee by lia. discriminate Ee. }
  destruct (encrypt_bytes H HH G HG E D C k spub rpriv rpub P src m Wk Wr Lr DP Ws Ls Wm) as (p & c & Kp & Cc & Eo).
  rewrite Eo in Ee. assert (O : out = firstn 48 src ++ c) by congruence. clear Ee Eo.
  assert (L48 : length (firstn 48 src) = 48%nat) by (apply firstn_length_le; exact Ls).
  assert (O32 : firstn 32 out = firstn 32 src).
  { rewrite O, firstn_app, L48. change (32 - 48)%nat with 0%nat. rewrite firstn_O, app_nil_r, firstn_firstn. reflexivity. }
  assert (O48 : skipn 48 out = c) by (rewrite O, skipn_app, L48, Nat.sub_diag, skipn_all2 by lia; reflexivity).
  assert (Oiv : firstn 16 (skipn 32 out) = firstn 16 (skipn 32 src)).
  { rewrite O, skipn_app, L48. change (32 - 48)%nat with 0%nat. rewrite skipn_O, firstn_app, skipn_length, L48.
    change (16 - (48 - 32))%nat with 0%nat. rewrite firstn_O, app_nil_r, skipn_firstn_comm, firstn_firstn. reflexivity. }
  exists p. rewrite O32, O48, Oiv. split; [exact Kp|]. split; [rewrite O, firstn_app, L48, Nat.sub_diag, firstn_O, app_nil_r, firstn_firstn; reflexivity|].
  split; [exact Ls|]. split; [reflexivity|].
  assert (L1 : length (firstn 32 src) = 32%nat) by (apply firstn_length_le; lia).
  destruct (shared_wf H G HG (pk_raw k) P (firstn 32 src) (wf_firstn _ _ Ws) L1) as [Wkey Lkey].
  split; [|split; [exact Wkey|split; [exact Lkey|exact Cc]]].
  split; [apply wf_firstn, wf_skipn, Ws|]. apply firstn_length_le. rewrite skipn_length. lia.
Qed.
Lemma encrypt_blocks k spub rpriv rpub P src1 m1 out1 rest1 src2 m2 out2 rest2 i j :
  wf_bytes (pk_raw k) -> wf_bytes rpub -> length rpub = 32%nat -> denotes rpub P ->
  wf_bytes src1 -> wf_bytes m1 -> wf_bytes src2 -> wf_bytes m2 ->
  encrypt H G E (new_block_cipher (KeyPair (Some k) spub) (KeyPair rpriv rpub)) src1 m1 = Ok (out1, rest1) ->
  encrypt H G E (new_block_cipher (KeyPair (Some k) spub) (KeyPair rpriv rpub)) src2 m2 = Ok (out2, rest2) ->
  firstn 32 out1 = firstn 32 out2 -> (16 * i + 16 <= length m1)%nat -> (16 * j + 16 <= length m2)%nat ->
  (block_at out1 (3 + i) = block_at out2 (3 + j) <->
   xors (block_at m1 i) (block_at m2 j) = xors (block_at out1 (2 + i)) (block_at out2 (2 + j))).
Proof.
  intros Wk Wr Lr DP Ws1 Wm1 Ws2 Wm2 E1 E2 Salt Li Lj.
  destruct (encrypted _ _ _ _ _ _ _ _ _ Wk Wr Lr DP Ws1 Wm1 E1) as (p1 & K1 & _ & _ & _ & B1 & Wkey & Lkey & C1).
  destruct (encrypted _ _ _ _ _ _ _ _ _ Wk Wr Lr DP Ws2 Wm2 E2) as (p2 & K2 & _ & _ & _ & B2 & _ & _ & C2).
  rewrite <- Salt in C2.
  destruct (pkcs7_parts m1 p1 K1 Wm1) as (Wp1 & A1 & L1 & Bl1 & _). destruct (pkcs7_parts m2 p2 K2 Wm2) as (Wp2 & A2 & L2 & Bl2 & _).
  rewrite <- (Bl1 i Li), <- (Bl2 j Lj), <- !block_prev, <- !block_cur.
  apply (cbc_blocks E D C _ Wkey Lkey); (assumption || lia).
Qed.
Lemma encrypt_prefix k spub rpriv rpub P src m1 out1 rest1 m2 out2 rest2 n :
  wf_bytes (pk_raw k) -> wf_bytes rpub -> length rpub = 32%nat -> denotes rpub P ->
  wf_bytes src -> wf_bytes m1 -> wf_bytes m2 ->
  encrypt H G E (new_block_cipher (KeyPair (Some k) spub) (KeyPair rpriv rpub)) src m1 = Ok (out1, rest1) ->
  encrypt H G E (new_block_cipher (KeyPair (Some k) spub) (KeyPair rpriv rpub)) src m2 = Ok (out2, rest2) ->
  (16 * n <= length m1)%nat -> (16 * n <= length m2)%nat ->
  (firstn (48 + 16 * n) out1 = firstn (48 + 16 * n) out2 <-> firstn (16 * n) m1 = firstn (16 * n) m2).
Proof.
  intros Wk Wr Lr DP Ws Wm1 Wm2 E1 E2 L1 L2.
  destruct (encrypted _ _ _ _ _ _ _ _ _ Wk Wr Lr DP Ws Wm1 E1) as (p1 & K1 & F1 & Ls & S1 & B1 & Wkey & Lkey & C1).
  destruct (encrypted _ _ _ _ _ _ _ _ _ Wk Wr Lr DP Ws Wm2 E2) as (p2 & K2 & F2 & _ & S2 & B2 & _ & _ & C2).
  assert (Iv : firstn 16 (skipn 32 out1) = firstn 16 (skipn 32 out2)).
  { rewrite !firstn_skipn_comm. change (32 + 16)%nat with 48%nat. congruence. }
  rewrite S2, <- S1, <- Iv in C2.
  destruct (pkcs7_parts m1 p1 K1 Wm1) as (Wp1 & A1 & P1 & _ & Pr1). destruct (pkcs7_parts m2 p2 K2 Wm2) as (Wp2 & A2 & P2 & _ & Pr2).
  rewrite <- (Pr1 n L1), <- (Pr2 n L2).
  rewrite <- (cbc_prefix E D C _ Wkey Lkey _ p1 (skipn 48 out1) p2 (skipn 48 out2) n B1) by (assumption || lia).
  rewrite !firstn_add, F1, F2. split; [apply app_inv_head|now intros ->].
Qed.
Lemma encrypt_injective k spub rpriv rpub P src m1 out1 rest1 m2 out2 rest2 :
  wf_bytes (pk_raw k) -> wf_bytes rpub -> length rpub = 32%nat -> denotes rpub P ->
  wf_bytes src -> wf_bytes m1 -> wf_bytes m2 ->
  encrypt H G E (new_block_cipher (KeyPair (Some k) spub) (KeyPair rpriv rpub)) src m1 = Ok (out1, rest1) ->
  encrypt H G E (new_block_cipher (KeyPair (Some k) spub) (KeyPair rpriv rpub)) src m2 = Ok (out2, rest2) ->
  (out1 = out2 <-> m1 = m2).
Proof.
  intros Wk Wr Lr DP Ws Wm1 Wm2 E1 E2. split; [|intros ->; congruence]. intros O.
  destruct (encrypted _ _ _ _ _ _ _ _ _ Wk Wr Lr DP Ws Wm1 E1) as (p1 & K1 & F1 & Ls & S1 & B1 & Wkey & Lkey & C1).
  destruct (encrypted _ _ _ _ _ _ _ _ _ Wk Wr Lr DP Ws Wm2 E2) as (p2 & K2 & F2 & _ & S2 & B2 & _ & _ & C2).
  rewrite <- O in C2. clear E1 E2. subst out2.
  destruct (pkcs7_parts m1 p1 K1 Wm1) as (Wp1 & A1 & P1 & _ & _). destruct (pkcs7_parts m2 p2 K2 Wm2) as (Wp2 & A2 & P2 & _ & _).
  pose proof (proj1 C1) as L1. pose proof (proj1 C2) as L2. pose proof (aligned_16 p1 A1) as Q1. pose proof (aligned_16 p2 A2) as Q2.
  assert (Q : p1 = p2).
  { rewrite <- (firstn_all2 p1 (n := 16 * (length p1 / 16))), <- (firstn_all2 p2 (n := 16 * (length p1 / 16))) by lia.
    apply (cbc_prefix E D C _ Wkey Lkey _ p1 _ p2 _ (length p1 / 16) B1 Wp1 Wp2 A1 A2 C1 C2); [lia|lia|reflexivity]. }
  rewrite <- Q in K2. exact (pkcs7_inverse _ _ _ K1 K2).
Qed.
Lemma decrypted k rpub spriv spub P input m : wf_bytes (pk_raw k) -> length rpub = 32%nat -> wf_bytes spub -> length spub = 32%nat ->
  denotes spub P -> wf_bytes input ->
  decrypt H G D (new_block_cipher (KeyPair spriv spub) (KeyPair (Some k) rpub)) input = Ok m ->
  exists p, pkcs7 m p /\ wf_bytes m /\ block (firstn 16 (skipn 32 input)) /\ wf_bytes (agreed_key H G (pk_raw k) P (firstn 32 input)) /\
    length (agreed_key H G (pk_raw k) P (firstn 32 input)) = 32%nat /\
    cbc E (agreed_key H G (pk_raw k) P (firstn 32 input)) (firstn 16 (skipn 32 input)) p (skipn 48 input).
Proof.
  intros Wk Lr Wp Lp DP Wi Dm.
  destruct (Nat.le_gt_cases 64 (length input)) as [Li|Li]; [|rewrite decrypt_short in Dm by exact Li; discriminate Dm].
  destruct (Nat.eq_dec (length input mod 16) 0) as [Ai|Ai].
  2:{ assert (Pn : decrypt H G D (new_block_cipher (KeyPair spriv spub) (KeyPair (Some k) rpub)) input = Panic).
      { apply (decrypt_panics H HH G HG); try assumption. exists P. exact DP. }
      rewrite Pn in Dm. discriminate Dm. }
  destruct (decrypt_bytes H HH G HG E D C k rpub spriv spub P input Wk Lr Wp Lp DP Wi Li Ai) as (p & Cb & Iff & _).
  apply Iff in Dm. exists p. split; [exact Dm|].
  assert (L1 : length (firstn 32 input) = 32%nat) by (apply firstn_length_le; lia).
  destruct (shared_wf H G HG (pk_raw k) P (firstn 32 input) (wf_firstn _ _ Wi) L1) as [Wkey Lkey].
  pose proof (dec_block input Wi Li) as Bi.
  destruct (cbc_back_cbc E D C _ Wkey Lkey _ _ _ Bi (wf_skipn 48 _ Wi) (eq_trans (dec_len input Li) Ai) Cb) as [Wpp Cc].
  split; [exact (pkcs7_wf m p Dm Wpp)|]. split; [exact Bi|]. split; [exact Wkey|]. split; [exact Lkey|exact Cc].
Qed.
Lemma decrypt_blocks k rpub spriv spub P input1 m1 input2 m2 i j :
  wf_bytes (pk_raw k) -> length rpub = 32%nat -> wf_bytes spub -> length spub = 32%nat -> denotes spub P ->
  wf_bytes input1 -> wf_bytes input2 ->
  decrypt H G D (new_block_cipher (KeyPair spriv spub) (KeyPair (Some k) rpub)) input1 = Ok m1 ->
  decrypt H G D (new_block_cipher (KeyPair spriv spub) (KeyPair (Some k) rpub)) input2 = Ok m2 ->
  firstn 32 input1 = firstn 32 input2 -> (16 * i + 16 <= length m1)%nat -> (16 * j + 16 <= length m2)%nat ->
  (block_at input1 (3 + i) = block_at input2 (3 + j) <->
   xors (block_at m1 i) (block_at m2 j) = xors (block_at input1 (2 + i)) (block_at input2 (2 + j))).
Proof.
  intros Wk Lr Wp Lp DP W1 W2 D1 D2 Salt Li Lj.
  destruct (decrypted _ _ _ _ _ _ _ Wk Lr Wp Lp DP W1 D1) as (p1 & K1 & Wm1 & B1 & Wkey & Lkey & C1).
  destruct (decrypted _ _ _ _ _ _ _ Wk Lr Wp Lp DP W2 D2) as (p2 & K2 & Wm2 & B2 & _ & _ & C2).
  rewrite <- Salt in C2.
  destruct (pkcs7_parts m1 p1 K1 Wm1) as (Wp1 & A1 & L1 & Bl1 & _). destruct (pkcs7_parts m2 p2 K2 Wm2) as (Wp2 & A2 & L2 & Bl2 & _).
  rewrite <- (Bl1 i Li), <- (Bl2 j Lj), <- !block_prev, <- !block_cur.
  apply (cbc_blocks E D C _ Wkey Lkey); (assumption || lia).
Qed.
End S.
Lemma ex_blocks : hash_ok 64 H7 /\ hash1_ok 32 G7 /\ cipher_ok Ex Ex /\
  exists k1 k2 b1 b2 P1 P2 src m1 m2 out1 out2 rest, wf_bytes (pk_raw k1) /\ wf_bytes (pk_raw k2) /\
  wf_bytes b1 /\ length b1 = 32%nat /\ denotes b1 P1 /\ wf_bytes b2 /\ length b2 = 32%nat /\ denotes b2 P2 /\
  wf_bytes src /\ wf_bytes m1 /\ wf_bytes m2 /\ (32 <= length m1)%nat /\ (32 <= length m2)%nat /\
  m1 <> m2 /\ firstn 16 m1 = firstn 16 m2 /\ firstn 32 m1 <> firstn 32 m2 /\
  encrypt H7 G7 Ex (new_block_cipher (KeyPair (Some k1) b1) (KeyPair (Some k2) b2)) src m1 = Ok (out1, rest) /\
  encrypt H7 G7 Ex (new_block_cipher (KeyPair (Some k1) b1) (KeyPair (Some k2) b2)) src m2 = Ok (out2, rest) /\
  wf_bytes out1 /\ wf_bytes out2 /\ firstn 32 out1 = firstn 32 out2 /\
  decrypt H7 G7 Ex (new_block_cipher (KeyPair (Some k1) b1) (KeyPair (Some k2) b2)) out1 = Ok m1 /\
  decrypt H7 G7 Ex (new_block_cipher (KeyPair (Some k1) b1) (KeyPair (Some k2) b2)) out2 = Ok m2.
Proof.
  split; [exact H7_ok|]. split; [exact G7_ok|]. split; [exact Ex_ok|].
  set (k1 := new_private_key (le_bytes 32 12345)). set (k2 := new_private_key (le_bytes 32 54321)).
  assert (W1 : wf_bytes (pk_raw k1)) by apply le_bytes_wf. assert (W2 : wf_bytes (pk_raw k2)) by apply le_bytes_wf.
  pose proof (new_key_pair_derived H7 H7_ok k1 W1) as E1. pose proof (new_key_pair_derived H7 H7_ok k2 W2) as E2.
  clearbody k1 k2.
  assert (W : forall b n, is_byte b -> wf_bytes (repeat b n)) by (intros; apply wf_repeat; assumption).
  set (m1 := repeat 5 32). set (m2 := repeat 5 16 ++ repeat 6 16).
  assert (Wm1 : wf_bytes m1) by (apply W; unfold is_byte; lia).
  assert (Wm2 : wf_bytes m2) by (apply Forall_app; split; apply W; unfold is_byte; lia).
  assert (Ws : wf_bytes (repeat 3 48)) by (apply W; unfold is_byte; lia).
  assert (Ls : (48 <= length (repeat 3%Z 48))%nat) by (rewrite repeat_length; lia).
  destruct (derived_decodes H7 (pk_raw k1)) as [L1 (P1 & D1)]. destruct (derived_decodes H7 (pk_raw k2)) as [L2 (P2 & D2)].
  destruct (public_key_wf H7 (pk_raw k1)) as [Wp1 _]. destruct (public_key_wf H7 (pk_raw k2)) as [Wp2 _].
  destruct (roundtrip H7 H7_ok G7 G7_ok Ex Ex Ex_ok k1 k2 _ _ (repeat 3 48) m1 W1 W2 Ws Wm1 E1 E2 Ls) as (out1 & rest1 & Ec1 & Ed1).
  destruct (roundtrip H7 H7_ok G7 G7_ok Ex Ex Ex_ok k1 k2 _ _ (repeat 3 48) m2 W1 W2 Ws Wm2 E1 E2 Ls) as (out2 & rest2 & Ec2 & Ed2).
  change (derived H7 k1) with (KeyPair (Some k1) (public_key_of H7 (pk_raw k1))) in *.
  change (derived H7 k2) with (KeyPair (Some k2) (public_key_of H7 (pk_raw k2))) in *.
  assert (Rest : forall m out rest, wf_bytes m -> encrypt H7 G7 Ex (new_block_cipher (KeyPair (Some k1) (public_key_of H7 (pk_raw k1))) (KeyPair (Some k2) (public_key_of H7 (pk_raw k2)))) (repeat 3 48) m = Ok (out, rest) ->
    rest = skipn 48 (repeat 3 48) /\ wf_bytes out).
  { intros m out rest Wm Ee. destruct (encrypt_bytes H7 H7_ok G7 G7_ok Ex Ex Ex_ok k1 (public_key_of H7 (pk_raw k1)) (Some k2) (public_key_of H7 (pk_raw k2)) P2 (repeat 3 48) m W1 Wp2 L2 D2 Ws Ls Wm) as (p & c & Kp & Cc & Eo).
    rewrite Eo in Ee. assert (rest = skipn 48 (repeat 3 48)) by congruence. assert (out = firstn 48 (repeat 3 48) ++ c) by congruence. subst.
    split; [reflexivity|]. apply Forall_app. split; [apply wf_firstn, Ws|].
    destruct (pkcs7_parts m p Kp Wm) as (Wp & Ap & _).
    refine (proj1 (cbc_wf Ex Ex Ex_ok _ _ _ _ p c _ Wp Ap Cc)).
    - apply (shared_wf H7 G7 G7_ok); [apply wf_firstn, Ws|reflexivity].
    - apply (shared_wf H7 G7 G7_ok); [apply wf_firstn, Ws|reflexivity].
    - split; [apply wf_firstn, wf_skipn, Ws|reflexivity]. }
  destruct (Rest m1 out1 rest1 Wm1 Ec1) as [-> Wo1]. destruct (Rest m2 out2 rest2 Wm2 Ec2) as [-> Wo2].
  exists k1, k2, (public_key_of H7 (pk_raw k1)), (public_key_of H7 (pk_raw k2)), P1, P2, (repeat 3 48), m1, m2, out1, out2, (skipn 48 (repeat 3 48)).
  split; [exact W1|]. split; [exact W2|]. split; [exact Wp1|]. split; [exact L1|]. split; [exact D1|]. split; [exact Wp2|]. split; [exact L2|]. split; [exact D2|].
  split; [exact Ws|]. split; [exact Wm1|]. split; [exact Wm2|]. split; [unfold m1; rewrite repeat_length; lia|].
  split; [unfold m2; rewrite app_length, !repeat_length; lia|].
  split; [intros K; vm_compute in K; discriminate K|]. split; [reflexivity|]. split; [intros K; vm_compute in K; discriminate K|].
  split; [exact Ec1|]. split; [exact Ec2|]. split; [exact Wo1|]. split; [exact Wo2|]. split; [|split; [exact Ed1|exact Ed2]].
  destruct (encrypted H7 H7_ok G7 G7_ok Ex Ex Ex_ok _ _ _ _ _ _ _ _ _ W1 Wp2 L2 D2 Ws Wm1 Ec1) as (_ & _ & _ & _ & S1 & _).
  destruct (encrypted H7 H7_ok G7 G7_ok Ex Ex Ex_ok _ _ _ _ _ _ _ _ _ W1 Wp2 L2 D2 Ws Wm2 Ec2) as (_ & _ & _ & _ & S2 & _). congruence.
Qed.
