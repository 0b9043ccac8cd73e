(** Lemmas behind C68 (Verify and RFC 8032) and C69 (what an accepted signature binds). *)
From Coq Require Import List ZArith Lia Bool Znumtheory.
From Verif Require Import GoBase FieldModel FieldSpec ByteLemmas Primality Fp Curve BasePoint GroupModel GroupSpec
  PointCodec PropFieldLemmas PropGroupLemmas ScalarModel ApiModel ApiSpec ApiProofs VerifyProofs PropSigLemmas Torsion PropSecLemmas GroupOrder RfcSpec.
Import ListNotations.
Open Scope Z_scope.

Lemma rfc_decodes_iff raw P : rfc_decodes raw P <-> raw = enc_point P.
Proof.
  pose proof (enc_point_val P) as V. pose proof (val_range (py P)) as R. assert (Pp : p25519 < 2 ^ 255) by reflexivity.
  unfold Fneg in V. assert (M : val (px P) mod 2 = if Z.odd (val (px P)) then 1 else 0) by apply Zmod_odd. split.
  - intros (W & L & Y & X). apply le_val_inj; [exact W|apply enc_point_wf|rewrite L, enc_point_length; reflexivity|].
    rewrite (Z.div_mod (le_val raw) (2 ^ 255)) by discriminate. rewrite Y, X, V, M.
    destruct (Z.odd _); ring.
  - intros ->. split; [apply enc_point_wf|]. split; [apply enc_point_length|]. rewrite V, M.
    destruct (Z.odd _).
    + replace (val (py P) + 2 ^ 255) with (1 * 2 ^ 255 + val (py P)) by ring. split.
      * rewrite Z.add_comm, Z.mod_add, Z.mod_small by (lia || discriminate). reflexivity.
      * rewrite Z.div_add_l, Z.div_small by (lia || discriminate). reflexivity.
    + rewrite Z.add_0_r. split; [apply Z.mod_small; lia|apply Z.div_small; lia].
Qed.
Lemma rfc_denotes raw P : rfc_decodes raw P -> denotes raw P.
Proof. rewrite rfc_decodes_iff. intros ->. apply enc_denotes. Qed.

(** ** points *)
Lemma psub_padd P Q : padd (psub P Q) Q = P.
Proof. unfold psub. rewrite padd_assoc, padd_neg_l, padd_0_r. reflexivity. Qed.
Lemma padd_psub P Q : psub (padd P Q) Q = P.
Proof. unfold psub. rewrite padd_assoc, padd_neg, padd_0_r. reflexivity. Qed.
Lemma add_move X Y Z : X = padd Y Z <-> Y = psub X Z.
Proof. split; intros ->; [symmetry; apply padd_psub|symmetry; apply psub_padd]. Qed.
Lemma zmul_psub n P Q : zmul n (psub P Q) = psub (zmul n P) (zmul n Q).
Proof. unfold psub. now rewrite zmul_padd, zmul_neg. Qed.
Lemma psub_zero_iff P Q : psub P Q = pzero <-> P = Q.
Proof. split; [apply psub_zero|intros ->; apply padd_neg]. Qed.
Lemma cofactored n X Y Z : zmul n X = padd (zmul n Y) (zmul n Z) <-> zmul n (psub Y (psub X Z)) = pzero.
Proof. rewrite add_move, <- zmul_psub, <- psub_zero_iff, <- zmul_psub. reflexivity. Qed.
Lemma cofactor_mod h A : zmul 8 (zmul (h mod q25519) A) = zmul 8 (zmul h A).
Proof.
  rewrite (Z.div_mod h q25519) at 2 by discriminate. rewrite zmul_add, zmul_padd.
  rewrite <- (zmul_mul 8 (q25519 * (h / q25519))). replace (8 * (q25519 * (h / q25519))) with (h / q25519 * (8 * q25519)) by ring.
  rewrite zmul_mul, exponent_8q, zmul_zero, padd_0_l. reflexivity.
Qed.
Lemma cofactored_mod s h A PR : zmul 8 (zmul s Bpt) = padd (zmul 8 PR) (zmul 8 (zmul h A)) <->
  zmul 8 (psub PR (psub (zmul s Bpt) (zmul (h mod q25519) A))) = pzero.
Proof. rewrite <- cofactored, cofactor_mod. reflexivity. Qed.

Lemma low64_1 : low64 1 <> 0 /\ low64 1 <> low64 q25519.
Proof. vm_compute. split; discriminate. Qed.
Section S.
Variable H : list bytes -> bytes.
Hypothesis HH : hash_ok 64 H.

Lemma rfc_sufficient A m R s : rfc_verify_sufficient H A m R s -> rfc_verify H A m R s.
Proof.
  intros (PA & PR & DA & DR & W & L & V & E). exists PA, PR. do 5 (split; [assumption|]).
  rewrite E, zmul_padd. reflexivity.
Qed.
(** the point a derived key decodes to, and its multiples *)
Lemma derived_key k pub : wf_bytes (pk_raw k) -> derive_public_key H k = Ok pub ->
  wf_bytes pub /\ length pub = 32%nat /\ pub <> all_zero 32 /\ rfc_decodes pub (zmul (secret_scalar H (pk_raw k)) Bpt).
Proof.
  intros Wk Ep. rewrite (derive_ok H HH k Wk) in Ep. assert (Epub : pub = public_key_of H (pk_raw k)) by congruence. subst pub.
  destruct (public_key_wf H (pk_raw k)) as [Wp Lp]. split; [exact Wp|]. split; [exact Lp|]. split; [apply public_key_not_zero|].
  apply rfc_decodes_iff. reflexivity.
Qed.
Lemma qmod n a : zmul (n mod q25519) (zmul a Bpt) = zmul n (zmul a Bpt).
Proof. rewrite <- !zmul_mul. apply zmul_B_inj. apply Z.mul_mod_idemp_l. discriminate. Qed.

Lemma verify_sufficient_iff k pub m R s : wf_bytes (pk_raw k) -> wf_bytes m -> wf_bytes R -> wf_bytes s -> length s = 32%nat ->
  derive_public_key H k = Ok pub -> le_val s < q25519 -> low64 (le_val s) <> 0 -> low64 (le_val s) <> low64 q25519 ->
  (verify H (KeyPair None pub) m (Sig R s) = Ok true <-> rfc_verify_sufficient H pub m R s).
Proof.
  intros Wk Wm WR Ws Ls Ep V N0 Nq. destruct (derived_key k pub Wk Ep) as (Wp & Lp & Np & DA).
  assert (Q : q25519 < 2 ^ 255) by reflexivity.
  destruct (verify_exact H HH (KeyPair None pub) m (Sig R s) Wp Wm WR Ws Lp Ls ltac:(cbn [sS]; lia)) as (b & Eb & I).
  cbn [sR sS kp_pub] in I. rewrite Eb. assert (E0 : Ok b = Ok true <-> b = true) by (split; congruence). rewrite E0, I. clear E0 I Eb.
  split.
  - intros (_ & _ & A & D & ER). pose proof (denotes_unique _ _ _ D (rfc_denotes _ _ DA)) as ->.
    eexists _, _. split; [exact DA|]. split; [apply rfc_decodes_iff; exact ER|]. do 3 (split; [assumption|]).
    apply add_move. f_equal. unfold challenge. rewrite qmod. reflexivity.
  - intros (PA & PR & DA' & DR & _ & _ & _ & E). do 2 (split; [auto|]). exists PA. split; [apply rfc_denotes, DA'|].
    pose proof (denotes_unique _ _ _ (rfc_denotes _ _ DA') (rfc_denotes _ _ DA)) as ->.
    apply rfc_decodes_iff in DR. rewrite DR at 1. f_equal. apply add_move in E. rewrite E. f_equal. unfold challenge. rewrite qmod. reflexivity.
Qed.
Lemma sign_rfc k m kp sg : wf_bytes (pk_raw k) -> wf_bytes m ->
  new_key_pair H (Some k) None = Ok kp -> sign H kp m = Ok sg -> rfc_verify_sufficient H (kp_pub kp) m (sR sg) (sS sg).
Proof.
  intros Wk Wm E Es. pose proof (sign_verify_pair H HH k m kp sg Wk Wm E Es) as V. apply (derived_inv H HH) in E; [|exact Wk]. subst kp.
  destruct (public_key_wf H (pk_raw k)) as [Wp Lp]. cbn [kp_pub].
  destruct (sign_total H HH k m _ Wk Wm Wp) as [(sg' & E' & LR & LS & WR & WS & _ & B)|E']; rewrite Es in E'; [|discriminate E'].
  assert (sg = sg') by congruence. subst sg'.
  rewrite verify_pub in V. cbn [kp_pub] in V. destruct sg as [R s]. cbn [sR sS] in *.
  assert (Q : q25519 < 2 ^ 255) by reflexivity.
  assert (C : low64 (le_val s) <> 0 /\ low64 (le_val s) <> low64 q25519).
  { destruct (verify_exact H HH (KeyPair None (public_key_of H (pk_raw k))) m (Sig R s) Wp Wm WR WS Lp LS ltac:(cbn [sS]; lia)) as (b & Eb & I).
    rewrite V in Eb. assert (b = true) as -> by congruence. apply I. reflexivity. }
  destruct C as [N0 Nq].
  apply (verify_sufficient_iff k _ m R s); try assumption. apply (derive_ok H HH k Wk).
Qed.

(** Verify accepts only what the cofactored equation accepts *)
Lemma verify_rfc pub m R s PA : wf_bytes m -> wf_bytes R -> wf_bytes s -> length s = 32%nat ->
  le_val s < q25519 -> rfc_decodes pub PA ->
  verify H (KeyPair None pub) m (Sig R s) = Ok true -> rfc_verify H pub m R s.
Proof.
  intros Wm WR Ws Ls V DA E. pose proof DA as DA2. destruct DA2 as (Wp & Lp & _).
  assert (Q : q25519 < 2 ^ 255) by reflexivity.
  destruct (verify_exact H HH (KeyPair None pub) m (Sig R s) Wp Wm WR Ws Lp Ls ltac:(cbn [sS]; lia)) as (b & Eb & I).
  rewrite E in Eb. assert (b = true) as -> by congruence. destruct (proj1 I eq_refl) as (_ & _ & A & D & ER). clear I. cbn [sR sS kp_pub] in *.
  pose proof (denotes_unique _ _ _ D (rfc_denotes _ _ DA)) as ->.
  eexists _, _. split; [exact DA|]. split; [apply rfc_decodes_iff; exact ER|]. do 3 (split; [assumption|]).
  apply cofactored_mod. unfold challenge. rewrite (proj2 (psub_zero_iff _ _) eq_refl). apply zmul_zero.
Qed.
(** and of those, the ones whose error point is neutral *)
Lemma rfc_verify_error pub m R s : wf_bytes m -> rfc_verify H pub m R s ->
  pub <> all_zero 32 -> low64 (le_val s) <> 0 -> low64 (le_val s) <> low64 q25519 ->
  exists b PA PR T, rfc_decodes pub PA /\ rfc_decodes R PR /\ zmul 8 T = pzero /\
    PR = padd (psub (zmul (le_val s) Bpt) (zmul (le_val (H [R; pub; m]) mod q25519) PA)) T /\
    verify H (KeyPair None pub) m (Sig R s) = Ok b /\ (b = true <-> T = pzero).
Proof.
  intros Wm (PA & PR & DA & DR & Ws & Ls & V & E) Np N0 Nq. apply cofactored_mod in E.
  pose proof DA as DA'. pose proof DR as DR'. destruct DA' as (Wp & Lp & _). destruct DR' as (WR & LR & _).
  assert (Q : q25519 < 2 ^ 255) by reflexivity.
  destruct (verify_exact H HH (KeyPair None pub) m (Sig R s) Wp Wm WR Ws Lp Ls ltac:(cbn [sS]; lia)) as (b & Eb & I).
  cbn [sR sS kp_pub] in I.
  set (X := psub (zmul (le_val s) Bpt) (zmul (le_val (H [R; pub; m]) mod q25519) PA)) in *.
  exists b, PA, PR, (psub PR X). split; [exact DA|]. split; [exact DR|]. split; [exact E|].
  split; [rewrite padd_comm; symmetry; apply psub_padd|]. split; [exact Eb|]. rewrite I, psub_zero_iff. apply rfc_decodes_iff in DR. split.
  - intros (_ & _ & A & D & ER). pose proof (denotes_unique _ _ _ D (rfc_denotes _ _ DA)) as ->. apply enc_point_inj. rewrite <- DR. exact ER.
  - intros EX. do 2 (split; [auto|]). exists PA. split; [apply rfc_denotes, DA|]. rewrite DR at 1. rewrite EX. reflexivity.
Qed.
(** signatures with an error of small order *)
Lemma rfc_accepts_verify_rejects k pub m r T : wf_bytes (pk_raw k) -> wf_bytes m -> derive_public_key H k = Ok pub ->
  T <> pzero -> zmul 8 T = pzero ->
  let R := enc_point (padd (zmul r Bpt) T) in
  let s := le_bytes 32 ((r + le_val (H [R; pub; m]) * secret_scalar H (pk_raw k)) mod q25519) in
  rfc_verify H pub m R s /\ verify H (KeyPair None pub) m (Sig R s) = Ok false.
Proof.
  intros Wk Wm Ep NT Z8 R s. destruct (derived_key k pub Wk Ep) as (Wp & Lp & Np & DA).
  assert (WR : wf_bytes R) by apply enc_point_wf. assert (Ws : wf_bytes s) by apply le_bytes_wf.
  assert (Ls : length s = 32%nat) by apply le_bytes_length.
  assert (Q : 0 < q25519 < 2 ^ 255) by (split; reflexivity).
  set (h := le_val (H [R; pub; m])) in *. set (a := secret_scalar H (pk_raw k)) in *.
  assert (B : 0 <= (r + h * a) mod q25519 < q25519) by (apply Z.mod_pos_bound; lia).
  assert (V : le_val s = (r + h * a) mod q25519) by (apply le_bytes_small; lia).
  assert (X : psub (zmul (le_val s) Bpt) (zmul h (zmul a Bpt)) = zmul r Bpt).
  { rewrite V, zmul_mod_q, zmul_add, zmul_mul. apply padd_psub. }
  split.
  - exists (zmul a Bpt), (padd (zmul r Bpt) T). split; [exact DA|]. split; [apply rfc_decodes_iff; reflexivity|].
    do 2 (split; [assumption|]). split; [lia|]. apply cofactored. fold h. rewrite X. rewrite padd_comm, padd_psub. exact Z8.
  - destruct (verify_exact H HH (KeyPair None pub) m (Sig R s) Wp Wm WR Ws Lp Ls ltac:(cbn [sS]; lia)) as (b & Eb & I).
    rewrite Eb. f_equal. destruct b; [exfalso|reflexivity]. destruct (proj1 I eq_refl) as (_ & _ & A & D & ER). cbn [sR sS kp_pub] in *.
    pose proof (denotes_unique _ _ _ D (rfc_denotes _ _ DA)) as ->. fold a in ER. unfold challenge in ER. fold h in ER. rewrite qmod, X in ER.
    apply enc_point_inj in ER. apply NT. apply (padd_cancel_l (zmul r Bpt)). rewrite ER, padd_0_r. reflexivity.
Qed.
(** keys and values on which the two differ *)
Lemma noncanonical_accepted m : wf_bytes m ->
  (forall P, ~ rfc_decodes (le_bytes 32 (2 ^ 255 - 18)) P) /\
  exists R s, length R = 32%nat /\ length s = 32%nat /\ verify H (KeyPair None (le_bytes 32 (2 ^ 255 - 18))) m (Sig R s) = Ok true.
Proof.
  intros Wm. set (pub := le_bytes 32 (2 ^ 255 - 18)).
  assert (Wp : wf_bytes pub) by apply le_bytes_wf. assert (Lp : length pub = 32%nat) by apply le_bytes_length.
  assert (Vp : le_val pub = 2 ^ 255 - 18) by (apply le_bytes_small; lia). split.
  - intros P (_ & _ & E & _). rewrite Vp in E. pose proof (val_range (py P)) as R. rewrite <- E in R.
    clear E. apply proj2 in R. revert R. vm_compute. discriminate.
  - assert (D : denotes pub pzero).
    { unfold denotes, y255, sign255. rewrite firstn_all2 by lia. rewrite Vp. split; [|right; reflexivity]. apply F_eq. vm_compute. reflexivity. }
    exists (enc_point Bpt), (le_bytes 32 1). split; [apply enc_point_length|]. split; [apply le_bytes_length|].
    assert (V1 : le_val (le_bytes 32 1) = 1) by reflexivity.
    destruct (verify_exact H HH (KeyPair None pub) m (Sig (enc_point Bpt) (le_bytes 32 1)) Wp Wm (enc_point_wf _) (le_bytes_wf _ _) Lp (le_bytes_length _ _)
      ltac:(cbn [sS]; rewrite V1; discriminate)) as (b & -> & I).
    f_equal. apply I. cbn [sR sS kp_pub]. rewrite V1. split; [exact low64_1|]. split.
    + intros E. apply (f_equal le_val) in E. rewrite Vp in E. discriminate E.
    + exists pzero. split; [exact D|]. rewrite zmul_zero, zmul_1, psub_pzero. reflexivity.
Qed.
Lemma zero_key_rejected m : wf_bytes m -> exists R s, rfc_verify H (all_zero 32) m R s /\
  low64 (le_val s) <> 0 /\ low64 (le_val s) <> low64 q25519 /\ verify H (KeyPair None (all_zero 32)) m (Sig R s) = Ok false.
Proof.
  intros Wm. assert (X : exists P, denotes (all_zero 32) P /\ zmul 8 P = pzero).
  { apply small_order_iff; [exact zero32_wf|reflexivity|]. left. reflexivity. }
  destruct X as (P & D & Z8).
  assert (DA : rfc_decodes (all_zero 32) P).
  { apply rfc_decodes_iff. destruct D as [Y X].
    assert (Fx : Fneg (px P) = false) by (destruct X as [X|X]; [exact X|rewrite X; reflexivity]).
    apply le_val_inj; [exact zero32_wf|apply enc_point_wf|rewrite enc_point_length; reflexivity|].
    rewrite enc_point_val, Fx, Y. reflexivity. }
  exists (enc_point Bpt), (le_bytes 32 1). split; [|split; [apply low64_1|split; [apply low64_1|apply verify_zero; reflexivity]]].
  exists P, Bpt. split; [exact DA|]. split; [apply rfc_decodes_iff; reflexivity|]. split; [apply le_bytes_wf|]. split; [apply le_bytes_length|].
  split; [reflexivity|]. apply cofactored. change (le_val (le_bytes 32 1)) with 1. rewrite zmul_1.
  rewrite !zmul_psub, <- (zmul_mul 8 _ P), Z.mul_comm, zmul_mul, Z8, zmul_zero, psub_pzero. apply psub_zero_iff. reflexivity.
Qed.

(** ** C69 *)
Lemma accepted_eq k pub m R s : wf_bytes (pk_raw k) -> wf_bytes m -> wf_bytes R -> wf_bytes s -> length s = 32%nat -> le_val s <= 2 ^ 255 ->
  derive_public_key H k = Ok pub ->
  (verify H (KeyPair None pub) m (Sig R s) = Ok true <->
   low64 (le_val s) <> 0 /\ low64 (le_val s) <> low64 q25519 /\
   R = enc_point (zmul (le_val s - challenge H R pub m * secret_scalar H (pk_raw k)) Bpt)).
Proof.
  intros Wk Wm WR Ws Ls V Ep. destruct (derived_key k pub Wk Ep) as (Wp & Lp & Np & DA).
  destruct (verify_exact H HH (KeyPair None pub) m (Sig R s) Wp Wm WR Ws Lp Ls V) as (b & Eb & I).
  rewrite Eb. assert (E0 : Ok b = Ok true <-> b = true) by (split; congruence). rewrite E0, I. clear E0 I Eb. cbn [sR sS kp_pub].
  rewrite zmul_sub, zmul_mul. split.
  - intros ((N0 & Nq) & _ & A & D & ER). pose proof (denotes_unique _ _ _ D (rfc_denotes _ _ DA)) as ->. auto.
  - intros (N0 & Nq & ER). do 2 (split; [auto|]). eexists. split; [apply rfc_denotes, DA|exact ER].
Qed.
Lemma accepted_twice k1 k2 pub1 pub2 m1 m2 R s : wf_bytes (pk_raw k1) -> wf_bytes (pk_raw k2) -> wf_bytes m1 -> wf_bytes m2 ->
  wf_bytes R -> wf_bytes s -> length s = 32%nat -> le_val s <= 2 ^ 255 ->
  derive_public_key H k1 = Ok pub1 -> derive_public_key H k2 = Ok pub2 ->
  verify H (KeyPair None pub1) m1 (Sig R s) = Ok true ->
  (verify H (KeyPair None pub2) m2 (Sig R s) = Ok true <->
   (q25519 | challenge H R pub1 m1 * secret_scalar H (pk_raw k1) - challenge H R pub2 m2 * secret_scalar H (pk_raw k2))).
Proof.
  intros W1 W2 Wm1 Wm2 WR Ws Ls V E1 E2 A1.
  apply (accepted_eq k1) in A1; try assumption. destruct A1 as (N0 & Nq & ER).
  rewrite (accepted_eq k2) by assumption. set (c1 := challenge H R pub1 m1 * _) in *. set (c2 := challenge H R pub2 m2 * _) in *. clearbody c1 c2.
  assert (X : R = enc_point (zmul (le_val s - c2) Bpt) <-> (q25519 | c1 - c2)).
  { rewrite ER. split.
    - intros E. apply enc_point_inj in E. apply psub_zero_iff in E. rewrite <- zmul_sub in E. apply order_B_iff in E.
      destruct E as (t & Et). exists (- t). rewrite Z.mul_opp_l. lia.
    - intros (t & Et). f_equal. apply psub_zero_iff. rewrite <- zmul_sub. apply order_B_iff. exists (- t). rewrite Z.mul_opp_l. lia. }
  rewrite X. tauto.
Qed.
Lemma other_message k pub m1 m2 R s : wf_bytes (pk_raw k) -> wf_bytes m1 -> wf_bytes m2 ->
  wf_bytes R -> wf_bytes s -> length s = 32%nat -> le_val s <= 2 ^ 255 -> derive_public_key H k = Ok pub ->
  verify H (KeyPair None pub) m1 (Sig R s) = Ok true ->
  (verify H (KeyPair None pub) m2 (Sig R s) = Ok true <->
   (q25519 | le_val (H [R; pub; m1]) - le_val (H [R; pub; m2]))).
Proof.
  intros Wk W1 W2 WR Ws Ls V Ep A1.
  rewrite (accepted_twice k k pub pub m1 m2) by assumption. rewrite <- Z.mul_sub_distr_r. unfold challenge.
  assert (Q : q25519 <> 0) by discriminate.
  assert (X : forall x y, (q25519 | x - y) <-> (q25519 | x mod q25519 - y mod q25519)).
  { intros x y. rewrite (Z.mod_eq x), (Z.mod_eq y) by exact Q. set (u := x / q25519). set (v := y / q25519). clearbody u v. generalize q25519 as q. intros q. split; intros (t & Et).
    - exists (t - u + v). rewrite !Z.mul_add_distr_r, Z.mul_sub_distr_r, <- Et. ring.
    - exists (t + u - v). rewrite Z.mul_sub_distr_r, Z.mul_add_distr_r, <- Et. ring. }
  rewrite (X (le_val (H [R; pub; m1]))). split.
  - intros D. apply prime_mult in D; [|exact prime_q25519]. destruct D as [D|D]; [exact D|destruct (scalar_not_q H _ D)].
  - intros D. now apply Z.divide_mul_l.
Qed.
End S.

(** ** examples *)
Definition Hq (parts : list bytes) : bytes := le_bytes 64 q25519.
Lemma Hq_ok : hash_ok 64 Hq.
Proof. intros parts _. split; [apply le_bytes_length|apply le_bytes_wf]. Qed.
(** the library reduces the hash modulo q before multiplying; on a key of mixed order this is another point *)
Lemma reduced_challenge : exists H pub m R s, hash_ok 64 H /\ wf_bytes m /\
  verify H (KeyPair None pub) m (Sig R s) = Ok true /\ rfc_verify H pub m R s /\ ~ rfc_verify_sufficient H pub m R s.
Proof.
  exists Hq, (enc_point T8), [], (enc_point Bpt), (le_bytes 32 1).
  assert (Wm : wf_bytes []) by constructor.
  assert (V1 : le_val (le_bytes 32 1) = 1) by reflexivity.
  assert (Ch : challenge Hq (enc_point Bpt) (enc_point T8) [] = 0) by (unfold challenge, Hq; vm_compute; reflexivity).
  assert (V : verify Hq (KeyPair None (enc_point T8)) [] (Sig (enc_point Bpt) (le_bytes 32 1)) = Ok true).
  { destruct (verify_exact Hq Hq_ok (KeyPair None (enc_point T8)) [] (Sig (enc_point Bpt) (le_bytes 32 1)) (enc_point_wf _) Wm (enc_point_wf _)
      (le_bytes_wf _ _) (enc_point_length _) (le_bytes_length _ _) ltac:(cbn [sS]; rewrite V1; discriminate)) as (b & -> & I).
    f_equal. apply I. cbn [sR sS kp_pub]. rewrite V1, Ch. split; [exact low64_1|]. split.
    - intros E. apply all_zero_denotes in E. apply T8_4. apply y0_order4. exact E.
    - exists T8. split; [apply enc_denotes|]. rewrite zmul_0, zmul_1, psub_pzero. reflexivity. }
  split; [exact Hq_ok|]. split; [exact Wm|]. split; [exact V|]. split.
  - apply (verify_rfc Hq Hq_ok _ _ _ _ T8); [exact Wm|apply enc_point_wf|apply le_bytes_wf|apply le_bytes_length|reflexivity|apply rfc_decodes_iff; reflexivity|exact V].
  - intros (PA & PR & DA & DR & _ & _ & _ & E). apply rfc_decodes_iff, enc_point_inj in DA, DR. subst PA PR.
    rewrite V1, zmul_1 in E. set (n := le_val (Hq _)) in E.
    assert (E' : padd Bpt pzero = padd Bpt (zmul n T8)) by (rewrite padd_0_r; exact E). clear E. rename E' into E. apply padd_cancel_l in E. subst n.
    symmetry in E. apply T8_order in E. unfold Hq in E. rewrite le_bytes_val in E. apply Z.mod_divide in E; [|discriminate]. vm_compute in E. discriminate E.
Qed.
Lemma ex_rfc : exists k m kp sg, wf_bytes (pk_raw k) /\ wf_bytes m /\ new_key_pair H7 (Some k) None = Ok kp /\ sign H7 kp m = Ok sg /\
  derive_public_key H7 k = Ok (kp_pub kp) /\ wf_bytes (sR sg) /\ wf_bytes (sS sg) /\ length (sS sg) = 32%nat /\ le_val (sS sg) < q25519 /\
  (exists PA, rfc_decodes (kp_pub kp) PA) /\ verify H7 (KeyPair None (kp_pub kp)) m (Sig (sR sg) (sS sg)) = Ok true.
Proof.
  destruct ex_sign as (k & m & kp & sg & Wk & Wm & Ek & Es & _). exists k, m, kp, sg. do 4 (split; [assumption|]).
  pose proof (sign_verify_pair H7 H7_ok k m kp sg Wk Wm Ek Es) as V. rewrite verify_pub in V.
  pose proof (derived_inv H7 H7_ok k kp Wk Ek) as K. rewrite K in Es |- *. cbn [kp_pub]. rewrite K in V. cbn [kp_pub] in V.
  destruct (public_key_wf H7 (pk_raw k)) as [Wp Lp].
  destruct (sign_total H7 H7_ok k m _ Wk Wm Wp) as [(sg' & E' & LR & LS & WR & WS & _ & B)|E']; rewrite Es in E'; [|discriminate E'].
  assert (sg = sg') by congruence. subst sg'. split; [apply (derive_ok H7 H7_ok k Wk)|]. do 4 (split; [assumption|]). split; [|destruct sg; exact V].
  exists (public_point H7 (pk_raw k)). apply rfc_decodes_iff. reflexivity.
Qed.
Lemma ex_error : exists k pub T, wf_bytes (pk_raw k) /\ derive_public_key HX k = Ok pub /\ T <> pzero /\ zmul 8 T = pzero.
Proof.
  destruct ex_derived as ((k & pub & Wk & E) & _). exists k, pub, T8. split; [exact Wk|]. split; [exact E|]. split; [|exact T8_8].
  intros Z0. apply T8_4. rewrite Z0. apply zmul_zero.
Qed.
