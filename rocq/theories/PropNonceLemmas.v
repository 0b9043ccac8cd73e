(** Lemmas behind C77: the signatures accepted under a derived key, one for each nonce. *)
From Coq Require Import List ZArith Lia Bool Znumtheory.
From Verif Require Import GoBase FieldModel FieldSpec ByteLemmas Primality Fp Curve BasePoint GroupModel GroupSpec
  PointCodec PropFieldLemmas PropGroupLemmas ScalarModel ApiModel ApiSpec ApiProofs VerifyProofs PropSigLemmas Torsion PropSecLemmas GroupOrder
  RfcSpec PropRfcLemmas ScalarSpec SlideExact.
Import ListNotations.
Open Scope Z_scope.

Lemma enc_B x y : enc_point (zmul x Bpt) = enc_point (zmul y Bpt) <-> x mod q25519 = y mod q25519.
Proof. rewrite <- zmul_B_inj. split; [apply enc_point_inj|congruence]. Qed.
Lemma enc_B_mod x : enc_point (zmul (x mod q25519) Bpt) = enc_point (zmul x Bpt).
Proof. apply enc_B. apply Z.mod_mod. discriminate. Qed.
Lemma mod_sub_iff x y : (q25519 | x - y) <-> x mod q25519 = y mod q25519.
Proof.
  assert (Q : q25519 <> 0) by discriminate. split.
  - intros (t & E). replace x with (y + t * q25519) by lia. now rewrite Z.mod_add.
  - intros E. apply Z.mod_divide; [exact Q|]. rewrite Zminus_mod, E, Z.sub_diag. apply Z.mod_0_l, Q.
Qed.
Lemma mod_bytes x : le_val (le_bytes 32 (x mod q25519)) < q25519.
Proof. rewrite q_small. now apply Z.mod_pos_bound. Qed.

Section S.
Variable H : list bytes -> bytes.
Hypothesis HH : hash_ok 64 H.
Variable k : privkey.
Variable pub m : bytes.
Hypothesis Wk : wf_bytes (pk_raw k).
Hypothesis Wm : wf_bytes m.
Hypothesis Ep : derive_public_key H k = Ok pub.

Lemma nonce_any R s : wf_bytes R -> wf_bytes s -> length s = 32%nat -> le_val s <= 2 ^ 255 ->
  (verify H (KeyPair None pub) m (Sig R s) = Ok true <->
   low64 (le_val s) <> 0 /\ low64 (le_val s) <> low64 q25519 /\
   exists r, 0 <= r < q25519 /\ R = enc_point (zmul r Bpt) /\
     (q25519 | le_val s - (r + challenge H R pub m * secret_scalar H (pk_raw k)))).
Proof.
  intros WR Ws Ls V. rewrite (accepted_eq H HH k pub m R s) by assumption.
  set (c := challenge H R pub m * secret_scalar H (pk_raw k)). clearbody c. set (v := le_val s) in *. clearbody v.
  split; intros (N0 & Nq & X); (split; [exact N0|]; split; [exact Nq|]).
  - exists ((v - c) mod q25519). split; [apply Z.mod_pos_bound; reflexivity|]. split; [rewrite enc_B_mod; exact X|].
    apply mod_sub_iff. rewrite Z.add_mod_idemp_l by discriminate. f_equal. lia.
  - destruct X as (r & B & -> & D). apply enc_B. apply mod_sub_iff. destruct D as (t & Et). exists (- t). rewrite Z.mul_opp_l. lia.
Qed.
Lemma nonce_form R s : wf_bytes R -> wf_bytes s -> length s = 32%nat -> le_val s < q25519 ->
  (verify H (KeyPair None pub) m (Sig R s) = Ok true <->
   low64 (le_val s) <> 0 /\ low64 (le_val s) <> low64 q25519 /\
   exists r, 0 <= r < q25519 /\ R = enc_point (zmul r Bpt) /\
     s = le_bytes 32 ((r + challenge H R pub m * secret_scalar H (pk_raw k)) mod q25519)).
Proof.
  intros WR Ws Ls V. rewrite nonce_any by (assumption || (unfold q25519 in V; lia)).
  assert (X : forall x, (q25519 | le_val s - x) <-> s = le_bytes 32 (x mod q25519)).
  { intros x. rewrite mod_sub_iff, (Z.mod_small (le_val s)) by (pose proof (le_val_bound s Ws); lia). split.
    - intros E. apply le_val_inj; [exact Ws|apply le_bytes_wf|rewrite le_bytes_length; exact Ls|]. now rewrite q_small.
    - intros E. rewrite E at 1. apply q_small. }
  split; intros (N0 & Nq & r & B & ER & D); (split; [exact N0|]; split; [exact Nq|]; exists r; split; [exact B|]; split; [exact ER|]); now apply X.
Qed.
Lemma nonce_unique r r' : 0 <= r < q25519 -> 0 <= r' < q25519 ->
  enc_point (zmul r Bpt) = enc_point (zmul r' Bpt) -> r = r'.
Proof. intros B B' E. apply enc_B in E. now rewrite !Z.mod_small in E. Qed.
Lemma nonce_every r : 0 <= r < q25519 ->
  let R := enc_point (zmul r Bpt) in
  let v := (r + challenge H R pub m * secret_scalar H (pk_raw k)) mod q25519 in
  exists b, verify H (KeyPair None pub) m (Sig R (le_bytes 32 v)) = Ok b /\
    (b = true <-> low64 v <> 0 /\ low64 v <> low64 q25519).
Proof.
  intros B R v. destruct (derived_key H HH k pub Wk Ep) as (Wp & Lp & _).
  assert (WR : wf_bytes R) by apply enc_point_wf. assert (Wv : wf_bytes (le_bytes 32 v)) by apply le_bytes_wf.
  assert (Lv : length (le_bytes 32 v) = 32%nat) by apply le_bytes_length.
  assert (Vv : le_val (le_bytes 32 v) = v) by apply q_small. assert (Bv : le_val (le_bytes 32 v) < q25519) by apply mod_bytes.
  destruct (verify_exact H HH (KeyPair None pub) m (Sig R (le_bytes 32 v)) Wp Wm WR Wv Lp Lv ltac:(cbn [sS]; unfold q25519 in Bv; lia)) as (b & Eb & _).
  exists b. split; [exact Eb|]. pose proof (nonce_form R (le_bytes 32 v) WR Wv Lv Bv) as F. rewrite Eb, Vv in F.
  assert (E0 : Ok b = Ok true <-> b = true) by (split; congruence). rewrite <- E0, F. split; [tauto|]. intros (N0 & Nq).
  split; [exact N0|]. split; [exact Nq|]. exists r. split; [exact B|]. split; reflexivity.
Qed.
Lemma nonce_all R s : wf_bytes R -> wf_bytes s -> length s = 32%nat ->
  (verify H (KeyPair None pub) m (Sig R s) = Ok true <->
   low64 (le_val s) <> 0 /\ low64 (le_val s) <> low64 q25519 /\
   exists r, 0 <= r < q25519 /\ R = enc_point (zmul r Bpt) /\
     (q25519 | double_scalar (le_val s) - (r + challenge H R pub m * secret_scalar H (pk_raw k)))).
Proof.
  intros WR Ws Ls. destruct (derived_key H HH k pub Wk Ep) as (Wp & Lp & Np & DA).
  destruct (verify_every H HH (KeyPair None pub) m (Sig R s) Wp Wm WR Ws (or_introl Lp) ltac:(change (32 <= length s)%nat; lia)) as (b & Eb & I).
  rewrite Eb. assert (E0 : Ok b = Ok true <-> b = true) by (split; congruence). rewrite E0, I. clear E0 I Eb.
  change (sS (Sig R s)) with s. change (sR (Sig R s)) with R. change (kp_pub (KeyPair None pub)) with pub.
  rewrite !firstn_all2 by lia. set (v := double_scalar (le_val s)). clearbody v.
  set (h := challenge H R pub m). clearbody h.
  assert (X : forall A, denotes pub A -> psub (zmul v Bpt) (zmul h A) = zmul (v - h * secret_scalar H (pk_raw k)) Bpt).
  { intros A D. rewrite (denotes_unique _ _ _ D (rfc_denotes _ _ DA)), zmul_sub, zmul_mul. reflexivity. }
  set (c := h * secret_scalar H (pk_raw k)) in *. clearbody c. split.
  - intros ((N0 & Nq) & _ & A & D & ER). split; [exact N0|]. split; [exact Nq|]. rewrite (X A D) in ER.
    exists ((v - c) mod q25519). split; [apply Z.mod_pos_bound; reflexivity|]. split; [rewrite enc_B_mod; exact ER|].
    apply mod_sub_iff. rewrite Z.add_mod_idemp_l by discriminate. f_equal. lia.
  - intros (N0 & Nq & r & B & ER & D). split; [split; assumption|]. split; [exact Np|].
    eexists. split; [apply rfc_denotes, DA|]. rewrite (X _ (rfc_denotes _ _ DA)), ER. apply enc_B. apply mod_sub_iff.
    destruct D as (t & Et). exists (- t). rewrite Z.mul_opp_l. lia.
Qed.
Lemma nonce_R R s : wf_bytes R -> wf_bytes s -> length s = 32%nat ->
  verify H (KeyPair None pub) m (Sig R s) = Ok true ->
  exists P, R = enc_point P /\ zmul q25519 P = pzero /\ (zmul 8 P = pzero -> P = pzero).
Proof.
  intros WR Ws Ls A. apply nonce_all in A; try assumption. destruct A as (_ & _ & r & B & ER & _).
  exists (zmul r Bpt). split; [exact ER|]. split.
  - rewrite <- zmul_mul. apply order_B_iff. apply Z.divide_factor_l.
  - intros E. rewrite <- zmul_mul in E. apply order_B_iff in E. apply order_B_iff.
    apply prime_mult in E; [|exact prime_q25519]. destruct E as [E|E]; [|exact E]. exfalso.
    apply Z.divide_pos_le in E; [|reflexivity]. unfold q25519 in E. lia.
Qed.
(** Sign gives the one with its own nonce *)
Lemma nonce_sign sg : sign H (KeyPair (Some k) pub) m = Ok sg ->
  sR sg = enc_point (zmul (nonce H (pk_raw k) m) Bpt).
Proof.
  intros E. destruct (derived_key H HH k pub Wk Ep) as (Wp & _).
  destruct (sign_equations H HH k m pub sg Wk Wm Wp E) as (a & r & h & _ & Er & ER & _). rewrite ER, Er. reflexivity.
Qed.
Lemma nonce_signed sg R s : sign H (KeyPair (Some k) pub) m = Ok sg ->
  wf_bytes R -> wf_bytes s -> length s = 32%nat -> le_val s < q25519 ->
  verify H (KeyPair None pub) m (Sig R s) = Ok true ->
  (Sig R s = sg <-> R = enc_point (zmul (nonce H (pk_raw k) m) Bpt)).
Proof.
  intros E WR Ws Ls V A. split; [intros <-; apply nonce_sign in E; exact E|]. intros ER.
  destruct (derived_key H HH k pub Wk Ep) as (Wp & Lp & _).
  destruct (sign_equations H HH k m pub sg Wk Wm Wp E) as (a & r & h & Ea & Er & ER' & Eh & ES).
  apply nonce_form in A; try assumption. destruct A as (_ & _ & r' & B' & ER'' & ES').
  assert (Rr : R = sR sg) by (rewrite ER, ER', Er; reflexivity).
  assert (Ss : s = sS sg); [|rewrite Rr, Ss; now destruct sg]. rewrite ES', ES, Ea, Eh, <- Rr.
  assert (r' = r) as ->; [|reflexivity]. apply nonce_unique; [exact B'|rewrite Er; apply Z.mod_pos_bound; reflexivity|].
  rewrite <- ER', <- Rr. symmetry. exact ER''.
Qed.
End S.

(** ** example: with a hash that ignores its input every nonce but a few gives an accepted signature *)
Lemma ex_nonces : exists k pub m r1 r2 s1 s2, wf_bytes (pk_raw k) /\ wf_bytes m /\ derive_public_key H7 k = Ok pub /\
  0 <= r1 < q25519 /\ 0 <= r2 < q25519 /\ r1 <> r2 /\ wf_bytes s1 /\ wf_bytes s2 /\ length s1 = 32%nat /\ length s2 = 32%nat /\
  le_val s1 < q25519 /\ le_val s2 < q25519 /\
  verify H7 (KeyPair None pub) m (Sig (enc_point (zmul r1 Bpt)) s1) = Ok true /\
  verify H7 (KeyPair None pub) m (Sig (enc_point (zmul r2 Bpt)) s2) = Ok true.
Proof.
  destruct ex_sign as (k & m & kp & sg & Wk & Wm & E & _). pose proof (derived_inv H7 H7_ok _ _ Wk E) as K.
  assert (Ep : derive_public_key H7 k = Ok (public_key_of H7 (pk_raw k))) by apply (derive_ok H7 H7_ok k Wk).
  set (pub := public_key_of H7 (pk_raw k)) in *. clearbody pub.
  pose (c := le_val (H7 []) mod q25519 * secret_scalar H7 (pk_raw k)).
  assert (Ch : forall R, challenge H7 R pub m * secret_scalar H7 (pk_raw k) = c) by reflexivity.
  clearbody c.
  pose (r := fun v => (v - c) mod q25519).
  assert (Br : forall v, 0 <= r v < q25519) by (intros v; apply Z.mod_pos_bound; reflexivity).
  assert (Er : forall v, 0 <= v < q25519 -> (r v + c) mod q25519 = v).
  { intros v Bv. unfold r. rewrite Z.add_mod_idemp_l by discriminate. replace (v - c + c) with v by lia. apply Z.mod_small, Bv. }
  assert (Acc : forall v, 0 <= v < q25519 -> low64 v <> 0 -> low64 v <> low64 q25519 ->
    verify H7 (KeyPair None pub) m (Sig (enc_point (zmul (r v) Bpt)) (le_bytes 32 v)) = Ok true).
  { intros v Bv N0 Nq. destruct (nonce_every H7 H7_ok k pub m Wk Wm Ep (r v) (Br v)) as (b & Eb & I).
    rewrite Ch, (Er v Bv) in Eb, I. rewrite Eb. f_equal. apply I. split; assumption. }
  assert (V : forall v, 0 <= v < q25519 -> le_val (le_bytes 32 v) < q25519).
  { intros v Bv. rewrite <- (Z.mod_small v q25519 Bv). apply mod_bytes. }
  assert (B1 : 0 <= 1 < q25519) by (unfold q25519; lia). assert (B2 : 0 <= 2 < q25519) by (unfold q25519; lia).
  exists k, pub, m, (r 1), (r 2), (le_bytes 32 1), (le_bytes 32 2).
  split; [exact Wk|]. split; [exact Wm|]. split; [exact Ep|]. split; [apply Br|]. split; [apply Br|].
  split. { intros X. pose proof (Er 1 B1) as X1. rewrite X, (Er 2 B2) in X1. lia. }
  split; [apply le_bytes_wf|]. split; [apply le_bytes_wf|]. split; [apply le_bytes_length|]. split; [apply le_bytes_length|].
  split; [apply V, B1|]. split; [apply V, B2|].
  split; apply Acc; try assumption; vm_compute; congruence.
Qed.
