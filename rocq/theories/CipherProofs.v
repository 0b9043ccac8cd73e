(** Key agreement, CBC mode, padding, Encrypt and Decrypt. *)
From Coq Require Import List ZArith Lia Bool.
From Verif Require Import GoBase FieldModel FieldSpec ByteLemmas Fp Curve Tables BasePoint GroupModel GroupSpec
  GroupProofs TableProofs PointCodec GroupEq ScalarMul PropFieldLemmas PropGroupLemmas
  ScalarModel ApiModel ApiSpec ApiProofs VerifyProofs PropSigLemmas.
Import ListNotations.
Open Scope Z_scope.

Lemma skipn_skipn {A} i : forall j (l : list A), skipn i (skipn j l) = skipn (j + i) l.
Proof.
  intros j. induction j as [|j IH]; intros l; [reflexivity|]. destruct l; [now destruct i|]. apply IH.
Qed.

(** ** xor *)
Lemma lxor_byte a b : is_byte a -> is_byte b -> is_byte (Z.lxor a b).
Proof.
  unfold is_byte. intros Ha Hb. assert (N : 0 <= Z.lxor a b) by (apply Z.lxor_nonneg; lia). split; [exact N|].
  destruct (Z.eq_dec (Z.lxor a b) 0) as [->|NZ]; [lia|].
  assert (L : Z.log2 (Z.lxor a b) < 8); [|apply Z.log2_lt_pow2 in L; [change (2 ^ 8) with 256 in L; lia|lia]].
  eapply Z.le_lt_trans; [apply Z.log2_lxor; lia|]. apply Z.max_lub_lt.
  - destruct (Z.eq_dec a 0) as [->|]; [reflexivity|]. apply Z.log2_lt_pow2; [lia|change (2 ^ 8) with 256; lia].
  - destruct (Z.eq_dec b 0) as [->|]; [reflexivity|]. apply Z.log2_lt_pow2; [lia|change (2 ^ 8) with 256; lia].
Qed.
Lemma xor_wf a : forall b, wf_bytes a -> wf_bytes b -> wf_bytes (xor_bytes a b).
Proof.
  induction a as [|x a IH]; intros [|y b] Wa Wb; try constructor.
  - inversion Wa; inversion Wb; subst. apply lxor_byte; assumption.
  - inversion Wa; inversion Wb; subst. apply IH; assumption.
Qed.
Lemma xor_length a : forall b, length a = length b -> length (xor_bytes a b) = length a.
Proof. induction a as [|x a IH]; intros [|y b] L; try reflexivity; [discriminate L|]. cbn. f_equal. apply IH. now injection L. Qed.
Lemma xor_twice a : forall b, length a = length b -> xor_bytes (xor_bytes a b) b = a.
Proof.
  induction a as [|x a IH]; intros [|y b] L; try reflexivity; [discriminate L|]. cbn.
  rewrite Z.lxor_assoc, Z.lxor_nilpotent, Z.lxor_0_r. f_equal. apply IH. now injection L.
Qed.
Lemma xor_prefix_ok n : forall k salt, length k = n -> length salt = n -> xor_prefix n k salt = Ok (xor_bytes k salt).
Proof.
  induction n as [|n IH]; intros [|x k] [|y s] L1 L2; try discriminate; [reflexivity|].
  cbn [xor_prefix xor_bytes]. rewrite IH; [reflexivity|now injection L1|now injection L2].
Qed.
Lemma xor_block a b : block a -> block b -> block (xor_bytes a b).
Proof. intros [Wa La] [Wb Lb]. split; [apply xor_wf; assumption|]. rewrite xor_length; congruence. Qed.

(** ** CBC *)
Lemma block_firstn p n : wf_bytes p -> length p = (16 * S n)%nat -> block (firstn 16 p).
Proof. intros W L. split; [apply wf_firstn, W|]. apply firstn_length_le. lia. Qed.
Lemma rest_skipn p n : wf_bytes p -> length p = (16 * S n)%nat -> wf_bytes (skipn 16 p) /\ length (skipn 16 p) = (16 * n)%nat.
Proof. intros W L. split; [apply wf_skipn, W|]. rewrite skipn_length. lia. Qed.

Section Cipher.
Variables E D : bytes -> bytes -> bytes.
Hypothesis C : cipher_ok E D.
Variable key : bytes.
Hypotheses (Wk : wf_bytes key) (Lk : length key = 32%nat).

Lemma firstn_block c r : block c -> firstn 16 (c ++ r) = c.
Proof. intros [_ L]. rewrite firstn_app, L, Nat.sub_diag, firstn_O, app_nil_r. apply firstn_all2. lia. Qed.
Lemma skipn_block c (r : bytes) : block c -> skipn 16 (c ++ r) = r.
Proof. intros [_ L]. rewrite skipn_app, L, Nat.sub_diag. rewrite skipn_all2 by lia. reflexivity. Qed.
Lemma cbc_enc_len n : forall iv p, block iv -> wf_bytes p -> length p = (16 * n)%nat ->
  wf_bytes (cbc_enc E n key iv p) /\ length (cbc_enc E n key iv p) = (16 * n)%nat.
Proof.
  induction n as [|n IH]; intros iv p Bi Wp Lp; [split; [constructor|reflexivity]|]. cbn [cbc_enc].
  pose proof (block_firstn p n Wp Lp) as B. destruct (rest_skipn p n Wp Lp) as [Wr Lr].
  destruct (C key Wk Lk _ (xor_block _ _ B Bi)) as ([We Le] & _).
  destruct (IH (E key (xor_bytes (firstn 16 p) iv)) (skipn 16 p) (conj We Le) Wr Lr) as [W L].
  split; [apply Forall_app; split; assumption|]. rewrite app_length, Le, L. lia.
Qed.
Lemma cbc_dec_len n : forall iv c, block iv -> wf_bytes c -> length c = (16 * n)%nat ->
  wf_bytes (cbc_dec D n key iv c) /\ length (cbc_dec D n key iv c) = (16 * n)%nat.
Proof.
  induction n as [|n IH]; intros iv c Bi Wp Lp; [split; [constructor|reflexivity]|]. cbn [cbc_dec].
  pose proof (block_firstn c n Wp Lp) as B. destruct (rest_skipn c n Wp Lp) as [Wr Lr].
  destruct (C key Wk Lk _ B) as (_ & Bd & _).
  destruct (IH (firstn 16 c) (skipn 16 c) B Wr Lr) as [W L].
  pose proof (xor_block _ _ Bd Bi) as [Wx Lx].
  split; [apply Forall_app; split; assumption|]. rewrite app_length, Lx, L. lia.
Qed.
Lemma cbc_dec_enc n : forall iv p, block iv -> wf_bytes p -> length p = (16 * n)%nat ->
  cbc_dec D n key iv (cbc_enc E n key iv p) = p.
Proof.
  induction n as [|n IH]; intros iv p Bi Wp Lp.
  - destruct p; [reflexivity|discriminate Lp].
  - cbn [cbc_enc cbc_dec]. pose proof (block_firstn p n Wp Lp) as B. destruct (rest_skipn p n Wp Lp) as [Wr Lr].
    destruct (C key Wk Lk _ (xor_block _ _ B Bi)) as (Be & _ & DE & _).
    rewrite firstn_block, skipn_block by exact Be. rewrite DE. rewrite xor_twice by (destruct B, Bi; congruence).
    rewrite IH by assumption. apply firstn_skipn.
Qed.
Lemma cbc_enc_dec n : forall iv c, block iv -> wf_bytes c -> length c = (16 * n)%nat ->
  cbc_enc E n key iv (cbc_dec D n key iv c) = c.
Proof.
  induction n as [|n IH]; intros iv c Bi Wp Lp.
  - destruct c; [reflexivity|discriminate Lp].
  - cbn [cbc_enc cbc_dec]. pose proof (block_firstn c n Wp Lp) as B. destruct (rest_skipn c n Wp Lp) as [Wr Lr].
    destruct (C key Wk Lk _ B) as (_ & Bd & _ & ED).
    rewrite firstn_block, skipn_block by (apply xor_block; assumption).
    rewrite xor_twice by (destruct Bd, Bi; congruence). rewrite ED. rewrite IH by assumption. apply firstn_skipn.
Qed.
End Cipher.

(** ** padding *)
Lemma pad_length m : length (pad m) = (16 * (length m / 16 + 1))%nat.
Proof.
  unfold pad. rewrite app_length, repeat_length. pose proof (Nat.div_mod (length m) 16 ltac:(discriminate)).
  pose proof (Nat.mod_upper_bound (length m) 16 ltac:(discriminate)). lia.
Qed.
Lemma pad_wf m : wf_bytes m -> wf_bytes (pad m).
Proof.
  intros W. apply Forall_app. split; [exact W|]. apply wf_repeat. unfold is_byte.
  pose proof (Nat.mod_upper_bound (length m) 16 ltac:(discriminate)). lia.
Qed.
Lemma pad_aligned m : (length (pad m) mod 16 = 0)%nat.
Proof. rewrite pad_length, Nat.mul_comm. apply Nat.mod_mul. discriminate. Qed.
Lemma last_byte l (x : Z) n : (0 < n)%nat -> byte_at (l ++ repeat x n) (length (l ++ repeat x n) - 1) = x.
Proof.
  intros H. rewrite app_length, repeat_length. unfold byte_at. rewrite app_nth2 by lia.
  apply (repeat_spec n). apply nth_In. rewrite repeat_length. lia.
Qed.
Lemma unpad_pad m : unpad (pad m) = Ok m.
Proof.
  unfold pad. set (n := (16 - length m mod 16)%nat).
  assert (Hn : (1 <= n <= 16)%nat) by (unfold n; pose proof (Nat.mod_upper_bound (length m) 16 ltac:(discriminate)); lia).
  clearbody n. unfold unpad. rewrite last_byte by lia.
  destruct (m ++ repeat (Z.of_nat n) n) as [|x r] eqn:Em.
  { apply (f_equal (@length Z)) in Em. rewrite app_length, repeat_length in Em. cbn in Em. lia. }
  rewrite <- Em. clear Em x r.
  replace (Z.of_nat n =? 0) with false by (symmetry; apply Z.eqb_neq; lia).
  replace (16 <? Z.of_nat n) with false by (symmetry; apply Z.ltb_ge; lia). cbn [orb].
  rewrite app_length, repeat_length. replace (Z.of_nat (length m + n) - Z.of_nat n) with (Z.of_nat (length m)) by lia.
  replace (Z.of_nat (length m) <? 0) with false by (symmetry; apply Z.ltb_ge; lia). rewrite Nat2Z.id.
  rewrite skipn_app, skipn_all, Nat.sub_diag. cbn [skipn app].
  rewrite firstn_app, Nat.sub_diag, firstn_O, app_nil_r, firstn_all.
  replace (forallb (fun x => x =? Z.of_nat n) (repeat (Z.of_nat n) n)) with true; [reflexivity|].
  symmetry. apply forallb_forall. intros x Hx. apply repeat_spec in Hx. subst x. apply Z.eqb_refl.
Qed.
Lemma forallb_repeat x l : forallb (fun y => y =? x) l = true -> l = repeat x (length l).
Proof.
  induction l as [|y l IH]; [reflexivity|]. cbn. intros H. apply andb_true_iff in H as [H1 H2].
  apply Z.eqb_eq in H1. subst y. f_equal. apply IH, H2.
Qed.
Lemma unpad_sound buf m : wf_bytes buf -> (length buf mod 16 = 0)%nat -> unpad buf = Ok m -> buf = pad m.
Proof.
  intros W A U. unfold unpad in U. destruct buf as [|x r]; [discriminate U|]. set (buf := x :: r) in *.
  assert (L : (0 < length buf)%nat) by (cbn; lia). clearbody buf. clear x r.
  set (p := byte_at buf (length buf - 1)) in *.
  destruct (Z.eqb_spec p 0) as [|P0]; [discriminate U|]. destruct (Z.ltb_spec 16 p) as [|P16]; [discriminate U|]. cbn [orb] in U.
  assert (Bp : 0 <= p) by (apply (proj1 (Forall_forall _ _) W); apply nth_In; lia).
  assert (Dv : length buf = (16 * (length buf / 16))%nat).
  { pose proof (Nat.div_mod (length buf) 16 ltac:(discriminate)). lia. }
  assert (L16 : (16 <= length buf)%nat) by lia.
  destruct (Z.ltb_spec (Z.of_nat (length buf) - p) 0) as [|Pm]; [discriminate U|].
  set (k := Z.to_nat (Z.of_nat (length buf) - p)) in *.
  destruct (forallb _ (skipn k buf)) eqn:F; [|discriminate U].
  assert (Em : m = firstn k buf) by congruence. subst m. apply forallb_repeat in F. rewrite skipn_length in F.
  rewrite <- (firstn_skipn k buf) at 1. rewrite F. unfold pad. rewrite firstn_length_le by lia. f_equal.
  assert (Kn : Z.of_nat k = Z.of_nat (length buf) - p) by (unfold k; lia).
  assert (M : (16 - k mod 16 = length buf - k)%nat).
  { set (w := (length buf / 16)%nat) in *. clearbody w.
    destruct (Z.eq_dec p 16) as [P|P].
    - assert (k = ((w - 1) * 16)%nat) by lia. subst. rewrite H, Nat.mod_mul by discriminate. lia.
    - assert (k = (16 - Z.to_nat p) + (w - 1) * 16)%nat by lia. rewrite H at 1.
      rewrite Nat.mod_add by discriminate. rewrite Nat.mod_small by lia. lia. }
  rewrite M. f_equal. lia.
Qed.
(** Decode never panics on at least one block *)
Lemma unpad_total buf : wf_bytes buf -> (16 <= length buf)%nat ->
  (exists m, unpad buf = Ok m) \/ unpad buf = Err ErrPaddingSize \/ unpad buf = Err ErrPaddingByte.
Proof.
  intros W L. unfold unpad. destruct buf as [|x r]; [cbn in L; lia|]. set (buf := x :: r) in *. clearbody buf. clear x r.
  set (p := byte_at buf (length buf - 1)) in *.
  destruct (Z.eqb_spec p 0) as [|P0]; [auto|]. destruct (Z.ltb_spec 16 p) as [|P16]; [auto|]. cbn [orb].
  destruct (Z.ltb_spec (Z.of_nat (length buf) - p) 0) as [|Pm]; [lia|].
  destruct (forallb _ _); [left; eauto|auto].
Qed.

(** ** the shared key *)
Section Shared.
Variable H : list bytes -> bytes.
Hypothesis HH : hash_ok 64 H.
Variable G : bytes -> bytes.
Hypothesis HG : hash1_ok 32 G.

Lemma shared_key_ok k pub salt P : wf_bytes (pk_raw k) -> wf_bytes pub -> length pub = 32%nat -> denotes pub P ->
  length salt = 32%nat ->
  get_shared_key H G 32 (Some k) pub salt = Ok (G (xor_bytes (enc_point (zmul (secret_scalar H (pk_raw k)) P)) salt)).
Proof.
  intros Wk Wp Lp DP Ls. unfold get_shared_key, new_ege. rewrite Lp. change (Nat.eqb 32 32) with true. cbv iota. rewrite bind_ok.
  destruct (g_decode_ok pub Wp (or_introl Lp)) as [(A & g & DA & -> & R)|[N _]]; [|destruct (N P DP)].
  rewrite (denotes_unique _ _ _ DA DP) in R. rewrite bind_ok. unfold new_ge.
  destruct (g_precompute_single_ok g None P R) as (rows & -> & T). rewrite bind_ok. cbn [deref]. rewrite bind_ok.
  destruct (prepare_ok H HH k Wk) as (a & -> & Wa & La & Va). rewrite bind_ok.
  destruct (g_scalarMultiply_ok (Ge g (Some rows) None) rows P a eq_refl T Wa) as (r & -> & Rr).
  - lia.
  - rewrite firstn_all2 by lia. rewrite Va. apply secret_scalar_range.
  - rewrite bind_ok. rewrite firstn_all2 in Rr by lia. rewrite Va in Rr.
    rewrite (g_encode_P3 _ _ Rr). rewrite bind_ok.
    rewrite xor_prefix_ok; [reflexivity|apply enc_point_length|exact Ls].
Qed.
Lemma shared_key_bad_length n k pub salt : length pub <> 32%nat -> get_shared_key H G n k pub salt = Err ErrEncodedGroup.
Proof. intros L. unfold get_shared_key, new_ege. apply Nat.eqb_neq in L. now rewrite L. Qed.
Lemma shared_key_bad_point n k pub salt : wf_bytes pub -> length pub = 32%nat -> (forall P, ~ denotes pub P) ->
  get_shared_key H G n k pub salt = Err ErrNotOnCurve.
Proof.
  intros Wp Lp N. unfold get_shared_key, new_ege. rewrite Lp. change (Nat.eqb 32 32) with true. cbv iota. rewrite bind_ok.
  destruct (g_decode_ok pub Wp (or_introl Lp)) as [(A & g & DA & -> & R)|[_ ->]]; [destruct (N A DA)|]. reflexivity.
Qed.
Lemma shared_key_no_private n pub salt P : wf_bytes pub -> length pub = 32%nat -> denotes pub P ->
  get_shared_key H G n None pub salt = Panic.
Proof.
  intros Wp Lp DP. unfold get_shared_key, new_ege. rewrite Lp. change (Nat.eqb 32 32) with true. cbv iota. rewrite bind_ok.
  destruct (g_decode_ok pub Wp (or_introl Lp)) as [(A & g & DA & -> & R)|[N _]]; [|destruct (N P DP)].
  rewrite bind_ok. unfold new_ge.
  destruct (g_precompute_single_ok g None A R) as (rows & -> & T). rewrite bind_ok. reflexivity.
Qed.
Lemma shared_wf k P salt : wf_bytes salt -> length salt = 32%nat ->
  wf_bytes (G (xor_bytes (enc_point (zmul (secret_scalar H k) P)) salt)) /\
  length (G (xor_bytes (enc_point (zmul (secret_scalar H k) P)) salt)) = 32%nat.
Proof.
  intros W L. destruct (HG (xor_bytes (enc_point (zmul (secret_scalar H k) P)) salt)) as [L' W'].
  - apply xor_wf; [apply enc_point_wf|exact W].
  - split; assumption.
Qed.
(** symmetric for derived keys *)
Lemma shared_symmetric k1 k2 salt : wf_bytes (pk_raw k1) -> wf_bytes (pk_raw k2) -> wf_bytes salt -> length salt = 32%nat ->
  exists key, length key = 32%nat /\ wf_bytes key /\
    get_shared_key H G 32 (Some k1) (public_key_of H (pk_raw k2)) salt = Ok key /\
    get_shared_key H G 32 (Some k2) (public_key_of H (pk_raw k1)) salt = Ok key.
Proof.
  intros W1 W2 Ws Ls.
  set (s1 := secret_scalar H (pk_raw k1)). set (s2 := secret_scalar H (pk_raw k2)).
  exists (G (xor_bytes (enc_point (zmul s1 (zmul s2 Bpt))) salt)).
  destruct (shared_wf (pk_raw k1) (zmul s2 Bpt) salt Ws Ls) as [W L]. split; [exact L|]. split; [exact W|]. split.
  - apply shared_key_ok; try assumption; [apply enc_point_wf|apply enc_point_length|apply enc_denotes].
  - rewrite <- zmul_mul, Z.mul_comm, zmul_mul.
    apply shared_key_ok; try assumption; [apply enc_point_wf|apply enc_point_length|apply enc_denotes].
Qed.

(** ** Encrypt and Decrypt *)
Variables E D : bytes -> bytes -> bytes.
Hypothesis C : cipher_ok E D.

Lemma bc_encode_ok m key iv : wf_bytes m -> wf_bytes key -> length key = 32%nat -> block iv ->
  exists c, bc_encode E m key iv = Ok c /\ wf_bytes c /\ length c = (16 * (length m / 16 + 1))%nat /\
    c = cbc_enc E (length m / 16 + 1) key iv (pad m).
Proof.
  intros Wm Wk Lk Bi. unfold bc_encode, aes_key_ok. rewrite Lk. cbn [Nat.eqb orb negb].
  unfold crypt_blocks. rewrite (proj2 Bi). cbn [Nat.eqb negb]. rewrite pad_aligned. cbn [Nat.eqb negb].
  assert (Q : (length (pad m) / 16 = length m / 16 + 1)%nat) by (rewrite pad_length, Nat.mul_comm; apply Nat.div_mul; discriminate).
  rewrite Q. eexists. split; [reflexivity|].
  destruct (cbc_enc_len E D C key Wk Lk (length m / 16 + 1) iv (pad m) Bi (pad_wf m Wm) (pad_length m)) as [W L].
  split; [exact W|]. split; [exact L|reflexivity].
Qed.
Lemma bc_decode_ok c key iv n : wf_bytes c -> length c = (16 * n)%nat -> wf_bytes key -> length key = 32%nat -> block iv ->
  bc_decode D c key iv = unpad (cbc_dec D n key iv c).
Proof.
  intros Wc Lc Wk Lk Bi. unfold bc_decode, aes_key_ok. rewrite Lk. cbn [Nat.eqb orb negb].
  unfold crypt_blocks. rewrite (proj2 Bi). cbn [Nat.eqb negb].
  replace (length c mod 16)%nat with 0%nat by (rewrite Lc, Nat.mul_comm, Nat.mod_mul by discriminate; reflexivity).
  cbn [Nat.eqb negb].
  replace (length c / 16)%nat with n by (rewrite Lc, Nat.mul_comm, Nat.div_mul by discriminate; reflexivity).
  reflexivity.
Qed.
Lemma bc_decode_panic c key iv : (length c mod 16 <> 0)%nat -> length key = 32%nat -> block iv ->
  bc_decode D c key iv = Panic.
Proof.
  intros Lc Lk Bi. unfold bc_decode, aes_key_ok. rewrite Lk. cbn [Nat.eqb orb negb].
  unfold crypt_blocks. rewrite (proj2 Bi). cbn [Nat.eqb negb]. apply Nat.eqb_neq in Lc. rewrite Lc. reflexivity.
Qed.
Lemma bc_roundtrip m key iv c : wf_bytes m -> wf_bytes key -> length key = 32%nat -> block iv ->
  bc_encode E m key iv = Ok c -> bc_decode D c key iv = Ok m.
Proof.
  intros Wm Wk Lk Bi Ec. destruct (bc_encode_ok m key iv Wm Wk Lk Bi) as (c' & E' & Wc & Lc & Vc).
  assert (Ecc : c' = c) by congruence. rewrite Ecc in Wc, Lc, Vc.
  rewrite (bc_decode_ok c key iv (length m / 16 + 1) Wc Lc Wk Lk Bi). rewrite Vc.
  rewrite (cbc_dec_enc E D C key Wk Lk) by (assumption || apply pad_wf, Wm || apply pad_length). apply unpad_pad.
Qed.
(** exactness of the padding check *)
Lemma bc_decode_iff c key iv m : wf_bytes c -> (length c mod 16 = 0)%nat -> wf_bytes key -> length key = 32%nat -> block iv ->
  wf_bytes m -> (bc_decode D c key iv = Ok m <-> bc_encode E m key iv = Ok c).
Proof.
  intros Wc Ac Wk Lk Bi Wm. split; [|apply bc_roundtrip; assumption].
  assert (Lc : length c = (16 * (length c / 16))%nat) by (pose proof (Nat.div_mod (length c) 16 ltac:(discriminate)); lia).
  rewrite (bc_decode_ok c key iv _ Wc Lc Wk Lk Bi). intros U.
  destruct (cbc_dec_len E D C key Wk Lk _ iv c Bi Wc Lc) as [Wd Ld].
  apply unpad_sound in U; [|exact Wd|rewrite Ld, Nat.mul_comm; apply Nat.mod_mul; discriminate].
  destruct (bc_encode_ok m key iv Wm Wk Lk Bi) as (c' & E' & _ & _ & Vc). rewrite E', Vc. f_equal.
  rewrite <- U. assert (Q : (length m / 16 + 1 = length c / 16)%nat).
  { pose proof (pad_length m) as P. rewrite <- U, Ld in P. lia. }
  rewrite Q. apply (cbc_enc_dec E D C key Wk Lk); assumption.
Qed.
Lemma bc_decode_wf c key iv m : wf_bytes c -> (length c mod 16 = 0)%nat -> wf_bytes key -> length key = 32%nat -> block iv ->
  bc_decode D c key iv = Ok m -> wf_bytes m.
Proof.
  intros Wc Ac Wk Lk Bi.
  assert (Lc : length c = (16 * (length c / 16))%nat) by (pose proof (Nat.div_mod (length c) 16 ltac:(discriminate)); lia).
  rewrite (bc_decode_ok c key iv _ Wc Lc Wk Lk Bi). intros U.
  destruct (cbc_dec_len E D C key Wk Lk _ iv c Bi Wc Lc) as [Wd Ld].
  apply unpad_sound in U; [|exact Wd|rewrite Ld, Nat.mul_comm; apply Nat.mod_mul; discriminate].
  rewrite U in Wd. unfold pad in Wd. apply Forall_app in Wd. apply Wd.
Qed.
Lemma bc_decode_total c key iv : wf_bytes c -> (length c mod 16 = 0)%nat -> (0 < length c)%nat ->
  wf_bytes key -> length key = 32%nat -> block iv ->
  (exists m, bc_decode D c key iv = Ok m) \/ bc_decode D c key iv = Err ErrPaddingSize \/ bc_decode D c key iv = Err ErrPaddingByte.
Proof.
  intros Wc Ac Pc Wk Lk Bi.
  assert (Lc : length c = (16 * (length c / 16))%nat) by (pose proof (Nat.div_mod (length c) 16 ltac:(discriminate)); lia).
  rewrite (bc_decode_ok c key iv _ Wc Lc Wk Lk Bi).
  destruct (cbc_dec_len E D C key Wk Lk _ iv c Bi Wc Lc) as [Wd Ld]. apply unpad_total; [exact Wd|lia].
Qed.

(** the derived pairs *)
Definition derived (k : privkey) : keypair := KeyPair (Some k) (public_key_of H (pk_raw k)).
Lemma read_full_ok src n : (n <= length src)%nat -> read_full src n = Ok (firstn n src, skipn n src).
Proof. intros L. unfold read_full. replace (Nat.ltb (length src) n) with false by (symmetry; apply Nat.ltb_ge; lia). reflexivity. Qed.
Lemma read_full_eof src n : (length src < n)%nat -> read_full src n = Err ErrEOF.
Proof. intros L. unfold read_full. apply Nat.ltb_lt in L. now rewrite L. Qed.

(** Encrypt for a sender with private key k and a recipient whose 32-byte key decodes to P *)
Lemma encrypt_ok k spub r P src m : wf_bytes (pk_raw k) -> wf_bytes src -> wf_bytes m ->
  wf_bytes (kp_pub r) -> length (kp_pub r) = 32%nat -> denotes (kp_pub r) P -> (48 <= length src)%nat ->
  let salt := firstn 32 src in let iv := firstn 16 (skipn 32 src) in
  let key := G (xor_bytes (enc_point (zmul (secret_scalar H (pk_raw k)) P)) salt) in
  exists c, encrypt H G E (new_block_cipher (KeyPair (Some k) spub) r) src m = Ok (salt ++ iv ++ c, skipn 48 src) /\
    bc_encode E m key iv = Ok c /\ length c = (16 * (length m / 16 + 1))%nat /\ wf_bytes c.
Proof.
  intros Wk Wsrc Wm Wp Lp DP Ls. cbv zeta.
  unfold encrypt, new_block_cipher. cbn [bc_keylen bc_sender bc_recipient kp_priv]. rewrite Lp.
  rewrite read_full_ok by lia. rewrite bind_ok. cbn [fst snd].
  assert (L1 : length (firstn 32 src) = 32%nat) by (apply firstn_length_le; lia).
  rewrite (shared_key_ok k (kp_pub r) (firstn 32 src) P) by assumption. rewrite bind_ok.
  rewrite read_full_ok by (rewrite skipn_length; lia). rewrite bind_ok. cbn [fst snd].
  set (salt := firstn 32 src) in *. set (iv := firstn 16 (skipn 32 src)).
  assert (Bi : block iv).
  { split; [apply wf_firstn, wf_skipn, Wsrc|]. apply firstn_length_le. rewrite skipn_length. lia. }
  assert (Wsalt : wf_bytes salt) by (apply wf_firstn, Wsrc).
  destruct (shared_wf (pk_raw k) P salt Wsalt L1) as [Wk' Lk'].
  destruct (bc_encode_ok m _ iv Wm Wk' Lk' Bi) as (c & -> & Wc & Lc & _). rewrite bind_ok.
  exists c. split; [|auto]. rewrite <- app_assoc. rewrite skipn_skipn. reflexivity.
Qed.
Lemma slice_ok b i j : (i <= j <= length b)%nat -> slice b i j = Ok (firstn (j - i) (skipn i b)).
Proof.
  intros L. unfold slice. replace (Nat.ltb j i) with false by (symmetry; apply Nat.ltb_ge; lia).
  replace (Nat.ltb (length b) j) with false by (symmetry; apply Nat.ltb_ge; lia). reflexivity.
Qed.
(** what Decrypt does after the length test, for a 32-byte recipient key *)
Lemma decrypt_steps s r input : length (kp_pub r) = 32%nat -> (64 <= length input)%nat ->
  decrypt H G D (new_block_cipher s r) input =
    (do key <- get_shared_key H G 32 (kp_priv r) (kp_pub s) (firstn 32 input);
     bc_decode D (skipn 48 input) key (firstn 16 (skipn 32 input))).
Proof.
  intros Lr Li. unfold decrypt, new_block_cipher. cbn [bc_keylen bc_sender bc_recipient].
  replace (Nat.ltb (length input) 64) with false by (symmetry; apply Nat.ltb_ge; lia). rewrite Lr.
  rewrite !slice_ok by lia. rewrite !bind_ok.
  change (32 - 0)%nat with 32%nat. change (48 - 32)%nat with 16%nat. change (skipn 0 input) with input.
  replace (firstn (length input - 48) (skipn 48 input)) with (skipn 48 input); [reflexivity|].
  symmetry. apply firstn_all2. rewrite skipn_length. lia.
Qed.
Lemma decrypt_short bc input : (length input < 64)%nat -> decrypt H G D bc input = Err ErrTooShort.
Proof. intros L. unfold decrypt. apply Nat.ltb_lt in L. now rewrite L. Qed.
Lemma layout_parts (salt iv c : bytes) : length salt = 32%nat -> length iv = 16%nat ->
  firstn 32 (salt ++ iv ++ c) = salt /\ firstn 16 (skipn 32 (salt ++ iv ++ c)) = iv /\ skipn 48 (salt ++ iv ++ c) = c.
Proof.
  intros L1 L2. split; [|split].
  - rewrite firstn_app, L1, Nat.sub_diag, firstn_O, app_nil_r. apply firstn_all2. lia.
  - rewrite skipn_app, L1, Nat.sub_diag. rewrite skipn_all2 by lia. cbn [app skipn].
    rewrite firstn_app, L2, Nat.sub_diag, firstn_O, app_nil_r. apply firstn_all2. lia.
  - rewrite app_assoc. rewrite skipn_app. rewrite skipn_all2 by (rewrite app_length; lia). rewrite app_length, L1, L2. reflexivity.
Qed.
Lemma decrypt_encrypt k1 k2 src m out rest : wf_bytes (pk_raw k1) -> wf_bytes (pk_raw k2) -> wf_bytes src -> wf_bytes m ->
  encrypt H G E (new_block_cipher (derived k1) (derived k2)) src m = Ok (out, rest) ->
  decrypt H G D (new_block_cipher (derived k1) (derived k2)) out = Ok m.
Proof.
  intros W1 W2 Ws Wm Ee.
  assert (Ls : (48 <= length src)%nat).
  { destruct (Nat.le_gt_cases 48 (length src)) as [|L]; [assumption|exfalso].
    unfold encrypt, new_block_cipher in Ee. cbn [bc_keylen bc_sender bc_recipient kp_priv kp_pub derived] in Ee.
    unfold public_key_of in Ee at 1. rewrite enc_point_length in Ee.
    destruct (Nat.le_gt_cases 32 (length src)).
    - rewrite read_full_ok in Ee by lia. rewrite bind_ok in Ee. cbn [fst snd] in Ee.
      unfold public_key_of in Ee at 1. rewrite enc_point_length in Ee.
      rewrite (shared_key_ok k1 _ _ (public_point H (pk_raw k2))) in Ee;
        [|exact W1|apply enc_point_wf|apply enc_point_length|apply enc_denotes|apply firstn_length_le; lia].
      rewrite bind_ok in Ee. rewrite read_full_eof in Ee by (rewrite skipn_length; lia). discriminate Ee.
    - rewrite read_full_eof in Ee by lia. discriminate Ee. }
  destruct (encrypt_ok k1 (public_key_of H (pk_raw k1)) (derived k2) (public_point H (pk_raw k2)) src m)
    as (c & Ec & Eb & Lc & Wc); cbn [derived kp_pub]; try assumption; [apply enc_point_wf|apply enc_point_length|apply enc_denotes|].
  fold (derived k1) in Ec. assert (Eo : out = firstn 32 src ++ firstn 16 (skipn 32 src) ++ c) by congruence. subst out. clear Ee Ec.
  set (salt := firstn 32 src) in *. set (iv := firstn 16 (skipn 32 src)) in *.
  assert (L1 : length salt = 32%nat) by (apply firstn_length_le; lia).
  assert (Bi : block iv).
  { split; [apply wf_firstn, wf_skipn, Ws|]. apply firstn_length_le. rewrite skipn_length. lia. }
  assert (Wsalt : wf_bytes salt) by (apply wf_firstn, Ws).
  rewrite decrypt_steps.
  - destruct (layout_parts salt iv c L1 (proj2 Bi)) as (-> & -> & ->). cbn [derived kp_priv kp_pub].
    rewrite (shared_key_ok k2 _ salt (public_point H (pk_raw k1)));
      [|exact W2|apply enc_point_wf|apply enc_point_length|apply enc_denotes|exact L1]. rewrite bind_ok.
    unfold public_point at 1. rewrite <- zmul_mul, Z.mul_comm, zmul_mul. fold (public_point H (pk_raw k2)).
    destruct (shared_wf (pk_raw k1) (public_point H (pk_raw k2)) salt Wsalt L1) as [Wk' Lk'].
    apply bc_roundtrip; assumption.
  - apply enc_point_length.
  - rewrite !app_length, L1, (proj2 Bi), Lc. lia.
Qed.
End Shared.
