(** Lemmas behind the property C61. *)
From Coq Require Import List ZArith Lia Bool Arith.
From Verif Require Import GoBase FieldSpec ByteLemmas Curve BasePoint GroupSpec PointCodec ApiModel ApiSpec ApiProofs PropFieldLemmas VerifyProofs PropSigLemmas CipherProofs PropCipherLemmas
  PropSecLemmas PadSpec PadProofs.
Import ListNotations.
Open Scope Z_scope.

Section P.
Variable H : list bytes -> bytes.
Hypothesis HH : hash_ok 64 H.
Variable G : bytes -> bytes.
Hypothesis HG : hash1_ok 32 G.
Variables E D : bytes -> bytes -> bytes.
Hypothesis C : cipher_ok E D.
Variables k1 k2 : privkey.
Hypothesis W1 : wf_bytes (pk_raw k1).
Hypothesis W2 : wf_bytes (pk_raw k2).
Variables kp1 kp2 : keypair.
Hypothesis E1 : new_key_pair H (Some k1) None = Ok kp1.
Hypothesis E2 : new_key_pair H (Some k2) None = Ok kp2.
Definition oracle (ct : bytes) : bool := accepted (decrypt H G D (new_block_cipher kp1 kp2) ct).

Lemma opens salt : wf_bytes salt -> length salt = 32%nat -> exists key, wf_bytes key /\ length key = 32%nat /\
  forall iv c, length iv = 16%nat -> (16 <= length c)%nat ->
    decrypt H G D (new_block_cipher kp1 kp2) (salt ++ iv ++ c) = bc_decode D c key iv.
Proof.
  intros Ws Ls. pose proof (derived_inv H HH k1 kp1 W1 E1) as X1. pose proof (derived_inv H HH k2 kp2 W2 E2) as X2.
  destruct (shared_symmetric H HH G HG k1 k2 salt W1 W2 Ws Ls) as (key & Lk & Wk & S1 & S2).
  exists key. split; [exact Wk|]. split; [exact Lk|]. intros iv c Li Lc. rewrite X1, X2.
  rewrite decrypt_steps; [|apply enc_point_length|rewrite !app_length; lia].
  destruct (layout_parts salt iv c Ls Li) as (-> & -> & ->). cbn [kp_priv kp_pub]. rewrite S2. reflexivity.
Qed.
Lemma attack_reads ct m : wf_bytes ct -> decrypt H G D (new_block_cipher kp1 kp2) ct = Ok m ->
  answer oracle (read_message ct) = m /\ (questions oracle (read_message ct) <= 272 * length ct)%nat.
Proof.
  intros Wc Dc. destruct (Nat.le_gt_cases 64 (length ct)) as [L|L]; [|rewrite decrypt_short in Dc by exact L; discriminate Dc].
  set (salt := firstn 32 ct) in *. set (iv := firstn 16 (skipn 32 ct)) in *. set (c := skipn 48 ct) in *.
  assert (Ls : length salt = 32%nat) by (apply firstn_length_le; lia).
  assert (Ws : wf_bytes salt) by (apply wf_firstn, Wc).
  assert (Bi : block iv) by (split; [apply wf_firstn, wf_skipn, Wc|apply firstn_length_le; rewrite skipn_length; lia]).
  assert (Wd : wf_bytes c) by (apply wf_skipn, Wc).
  assert (Lc : (16 <= length c)%nat) by (unfold c; rewrite skipn_length; lia).
  assert (Ect : ct = salt ++ iv ++ c).
  { unfold salt, iv, c. rewrite <- (firstn_skipn 32 ct) at 1. f_equal. rewrite <- (firstn_skipn 16 (skipn 32 ct)) at 1. f_equal.
    rewrite skipn_skipn. reflexivity. }
  destruct (opens salt Ws Ls) as (key & Wk & Lk & K).
  assert (Dk : bc_decode D c key iv = Ok m) by (rewrite <- K, <- Ect; [exact Dc|apply Bi|exact Lc]).
  assert (A : (length c mod 16 = 0)%nat).
  { destruct (Nat.eq_dec (length c mod 16) 0) as [|N]; [assumption|]. rewrite (bc_decode_panic D c key iv N Lk Bi) in Dk. discriminate Dk. }
  assert (O : forall iv c, block iv -> wf_bytes c -> (16 <= length c)%nat -> oracle (salt ++ iv ++ c) = accepted (bc_decode D c key iv)).
  { intros iv' c' B' _ L'. unfold oracle. rewrite K; [reflexivity|apply B'|exact L']. }
  destruct (read_ok E D C key Wk Lk oracle salt O iv c m Ls Bi Wd A Dk) as (R & Q).
  rewrite <- Ect in R, Q. split; [exact R|]. apply (Nat.le_trans _ _ _ Q). apply Nat.mul_le_mono_l. unfold c. rewrite skipn_length. lia.
Qed.
Lemma attack_reads_encrypted src m out rest : wf_bytes src -> wf_bytes m ->
  encrypt H G E (new_block_cipher kp1 kp2) src m = Ok (out, rest) ->
  answer oracle (read_message out) = m /\ (questions oracle (read_message out) <= 272 * length out)%nat.
Proof.
  intros Ws Wm Ee. destruct (opened H HH G HG E D C k1 k2 kp1 kp2 src m out rest W1 W2 Ws Wm E1 E2 Ee)
    as (salt & iv & c & key & -> & Ls & Wsalt & Bi & Wk & Lk & Eb & Ec & _ & K).
  assert (Wc : wf_bytes c /\ (16 <= length c)%nat).
  { destruct (bc_encode_ok E D C m key iv Wm Wk Lk Bi) as (c' & Ec' & Wc & Lc & _). assert (c' = c) by congruence. subst c'. split; [exact Wc|lia]. }
  apply attack_reads.
  - apply Forall_app. split; [exact Wsalt|]. apply Forall_app. split; [apply Bi|apply Wc].
  - rewrite K; [|apply Bi|apply Wc]. apply (bc_roundtrip E D C m key iv c); assumption.
Qed.
Lemma attack_writes salt m : wf_bytes salt -> length salt = 32%nat -> wf_bytes m ->
  let ct := answer oracle (write_message salt m) in
  decrypt H G D (new_block_cipher kp1 kp2) ct = Ok m /\ firstn 32 ct = salt /\
  (questions oracle (write_message salt m) <= 4352 * (length m / 16 + 1))%nat.
Proof.
  intros Ws Ls Wm ct. destruct (opens salt Ws Ls) as (key & Wk & Lk & K).
  assert (O : forall iv c, block iv -> wf_bytes c -> (16 <= length c)%nat -> oracle (salt ++ iv ++ c) = accepted (bc_decode D c key iv)).
  { intros iv' c' B' _ L'. unfold oracle. rewrite K; [reflexivity|apply B'|exact L']. }
  destruct (write_ok E D C key Wk Lk oracle salt O m Wm) as (iv & c & A & Bi & Wc & Lc & Dk & Q).
  unfold ct. rewrite A. split; [rewrite K; [exact Dk|apply Bi|lia]|]. split; [|exact Q].
  apply (layout_parts salt iv c Ls (proj2 Bi)).
Qed.
End P.
