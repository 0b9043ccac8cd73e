(** Encoding and decoding of group elements. *)
From Coq Require Import List ZArith Lia Bool Ring Field.
From Verif Require Import GoBase FieldModel FieldSpec FieldProofs ByteLemmas EncodeProofs
  ScalarProofs Primality Fp Curve Tables BaseCert BasePoint GroupModel GroupSpec FieldPow GroupProofs.
Import ListNotations.
Open Scope Z_scope.

(** ** encoding *)
Lemma set_sign_le n v neg : (0 < n)%nat -> 0 <= v < 128 * 256 ^ (Z.of_nat n - 1) ->
  set_sign neg (le_bytes n v) = le_bytes n (v + (if neg then 128 * 256 ^ (Z.of_nat n - 1) else 0)).
Proof.
  intros Hn. destruct n as [|n]; [lia|]. clear Hn.
  replace (Z.of_nat (S n) - 1) with (Z.of_nat n) by lia.
  unfold set_sign. rewrite le_bytes_length. replace (S n - 1)%nat with n by lia.
  revert v. induction n as [|n IH]; intros v H.
  - change (128 * 256 ^ Z.of_nat 0) with 128 in *. cbn [le_bytes firstn app byte_at nth].
    rewrite Z.mod_small by lia.
    f_equal. destruct neg; [|rewrite Z.lor_0_r, Z.add_0_r; symmetry; apply Z.mod_small; lia].
    rewrite (Z.mod_small (v + 128)) by lia. change 128 with (1 * 2 ^ 7) at 1. rewrite lor_add by lia. reflexivity.
  - replace (Z.of_nat (S n)) with (Z.of_nat n + 1) in * by lia. rewrite Z.pow_add_r in * by lia.
    change (256 ^ 1) with 256 in *.
    assert (P : 0 < 256 ^ Z.of_nat n) by (apply Z.pow_pos_nonneg; lia).
    assert (H' : 0 <= v / 256 < 128 * 256 ^ Z.of_nat n).
    { split; [apply Z.div_pos; lia|apply Z.div_lt_upper_bound; lia]. }
    specialize (IH _ H').
    change (le_bytes (S (S n)) v) with (v mod 256 :: le_bytes (S n) (v / 256)).
    change (firstn (S n) (v mod 256 :: le_bytes (S n) (v / 256)))
      with (v mod 256 :: firstn n (le_bytes (S n) (v / 256))).
    change (byte_at (v mod 256 :: le_bytes (S n) (v / 256)) (S n))
      with (byte_at (le_bytes (S n) (v / 256)) n).
    cbn [app]. rewrite IH.
    set (s := if neg then 128 * (256 ^ Z.of_nat n * 256) else 0).
    set (s' := if neg then 128 * 256 ^ Z.of_nat n else 0).
    assert (E : s = s' * 256) by (unfold s, s'; destruct neg; ring).
    change (le_bytes (S (S n)) (v + s)) with ((v + s) mod 256 :: le_bytes (S n) ((v + s) / 256)).
    rewrite E, Z_mod_plus_full, Z.div_add by lia. reflexivity.
Qed.
Lemma set_sign_F a neg : set_sign neg (le_bytes 32 (val a)) = le_bytes 32 (val a + (if neg then 2 ^ 255 else 0)).
Proof.
  rewrite set_sign_le; [reflexivity|lia|].
  pose proof (val_range a). unfold p25519 in *. change (128 * 256 ^ (Z.of_nat 32 - 1)) with (2 ^ 255). lia.
Qed.
Lemma set_sign_length neg s : (0 < length s)%nat -> length (set_sign neg s) = length s.
Proof. intros H. unfold set_sign. rewrite app_length, firstn_length. cbn. lia. Qed.

Lemma Z_inv a z : z <> F0 -> (a * z * Finv z = a)%F.
Proof. intros N. field. exact N. Qed.
Lemma g_encode_proj_ok g P : bnd 110 (gX g) -> bnd 110 (gY g) -> bnd 110 (gZ g) -> rF (gZ g) <> F0 ->
  rF (gX g) = (px P * rF (gZ g))%F -> rF (gY g) = (py P * rF (gZ g))%F ->
  g_encode_proj g = Ok (enc_point P).
Proof.
  intros B1 B2 B3 N E1 E2. unfold g_encode_proj.
  assert (Bi : bnd 101 (fe_invert (gZ g))) by (apply bnd_invert; bd).
  assert (Ei : rF (fe_invert (gZ g)) = Finv (rF (gZ g))) by (apply rF_invert; bd).
  set (inv := fe_invert (gZ g)) in *. clearbody inv.
  rewrite fe_encode_rF by bd. rewrite fe_is_negative_rF by bd.
  rewrite !rF_mul by bd. rewrite E1, E2, Ei, !Z_inv by exact N. rewrite set_sign_F.
  unfold new_ege. rewrite le_bytes_length. reflexivity.
Qed.
Lemma g_encode_P3 g P : repc P3 g P -> g_encode g = Ok (enc_point P).
Proof.
  intros H. apply rep_P3 in H as (X&Y&Z&T&->&B1&B2&B3&B4&N&E1&E2&E3).
  apply g_encode_proj_ok; assumption.
Qed.
Lemma g_encode_P2 g P : repc P2 g P -> g_encode g = Ok (enc_point P).
Proof.
  intros H. apply rep_P2 in H as (X&Y&Z&T&->&B1&B2&B3&N&E1&E2).
  apply g_encode_proj_ok; assumption.
Qed.
Lemma g_encode_P1 g P : repc P1xP1 g P -> g_encode g = Ok (enc_point P).
Proof.
  intros H. unfold g_encode. assert (E : g_cs g = P1xP1) by apply H. rewrite E.
  destruct (to_P2_P1 g P H) as (r & -> & Hr). cbn [bind].
  apply rep_P2 in Hr as (X&Y&Z&T&->&B1&B2&B3&N&E1&E2). apply g_encode_proj_ok; assumption.
Qed.
Definition encodable (c : csys) : bool := match c with P2 | P3 | P1xP1 => true | _ => false end.
Theorem g_encode_ok g P : rep g P -> encodable (g_cs g) = true -> g_encode g = Ok (enc_point P).
Proof.
  intros H E. apply repc_self in H. destruct (g_cs g) eqn:C; try discriminate E.
  - apply g_encode_P2, H.
  - apply g_encode_P3, H.
  - apply g_encode_P1, H.
Qed.
Theorem g_encode_panic g : encodable (g_cs g) = false -> g_encode g = Panic.
Proof.
  intros H. unfold g_encode, to_P2. destruct (g_cs g) eqn:E; try discriminate H;
    rewrite to_cs_panic by (rewrite E; reflexivity); reflexivity.
Qed.

Lemma enc_point_length P : length (enc_point P) = 32%nat.
Proof. apply le_bytes_length. Qed.
Lemma enc_point_wf P : wf_bytes (enc_point P).
Proof. apply le_bytes_wf. Qed.
Lemma enc_point_val P : le_val (enc_point P) = val (py P) + (if Fneg (px P) then 2 ^ 255 else 0).
Proof.
  unfold enc_point. rewrite le_bytes_val. apply Z.mod_small.
  pose proof (val_range (py P)). unfold p25519 in *. change (256 ^ Z.of_nat 32) with (2 ^ 256).
  destruct (Fneg (px P)); lia.
Qed.

(** ** denotation *)
Lemma y_determines P Q : py P = py Q -> px P = px Q \/ px P = (- px Q)%F.
Proof.
  destruct P as [x1 y1 C1], Q as [x2 y2 C2]. cbn. intros ->. apply F_sq_eq.
  unfold on_curve in *.
  assert (N : (1 + Fd * (y2 * y2))%F <> F0).
  { intros H. destruct (F_eq_dec y2 F0) as [->|N].
    - apply F1_neq_F0. rewrite <- H. ring.
    - apply Fmd_nonsquare. exists (Finv y2).
      assert (K : (- Fd * (y2 * y2) = 1)%F) by (replace (- Fd * (y2 * y2))%F with (1 - (1 + Fd * (y2 * y2)))%F by ring; rewrite H; ring).
      replace (Finv y2 * Finv y2)%F with ((Finv y2 * Finv y2) * (- Fd * (y2 * y2)))%F by (rewrite K; ring).
      field. exact N. }
  apply (F_mul_cancel _ _ _ N).
  replace (x1 * x1 * (1 + Fd * (y2 * y2)))%F with (y2 * y2 - (y2 * y2 - x1 * x1 - Fd * (x1 * x1) * (y2 * y2)))%F by ring.
  rewrite C1.
  replace (x2 * x2 * (1 + Fd * (y2 * y2)))%F with (y2 * y2 - (y2 * y2 - x2 * x2 - Fd * (x2 * x2) * (y2 * y2)))%F by ring.
  rewrite C2. ring.
Qed.

Lemma Fneg_0 : Fneg F0 = false. Proof. reflexivity. Qed.
Theorem denotes_unique raw P Q : denotes raw P -> denotes raw Q -> P = Q.
Proof.
  intros [Y1 S1] [Y2 S2]. apply point_eq; [|congruence].
  destruct (y_determines P Q) as [E|E]; [congruence|exact E|].
  destruct (F_eq_dec (px Q) F0) as [Z|N].
  { rewrite E, Z. ring. }
  destruct S2 as [S2|S2]; [|contradiction].
  assert (N' : px P <> F0).
  { rewrite E. intros H. apply N. replace (px Q) with (- - px Q)%F by ring. rewrite H. ring. }
  destruct S1 as [S1|S1]; [|contradiction].
  rewrite E in S1. rewrite Fneg_opp in S1 by exact N. rewrite S2 in S1.
  destruct (sign255 raw); discriminate S1.
Qed.
Lemma enc_denotes P : denotes (enc_point P) P.
Proof.
  unfold denotes, y255, sign255.
  rewrite firstn_all2 by (rewrite enc_point_length; lia). rewrite enc_point_val.
  pose proof (val_range (py P)) as R. unfold p25519 in R.
  split.
  - destruct (Fneg (px P)).
    + replace (val (py P) + 2 ^ 255) with (val (py P) + 1 * 2 ^ 255) by lia.
      rewrite Z_mod_plus_full, Z.mod_small by lia. now rewrite inF_val.
    + rewrite Z.add_0_r, Z.mod_small by lia. now rewrite inF_val.
  - left. destruct (Fneg (px P)); symmetry; [apply Z.leb_le|apply Z.leb_gt]; lia.
Qed.
Theorem enc_point_inj P Q : enc_point P = enc_point Q -> P = Q.
Proof.
  intros E. apply (denotes_unique (enc_point P)); [apply enc_denotes|rewrite E; apply enc_denotes].
Qed.

(** ** decoding *)
Lemma den_v y : (Fd * (y * y) + 1)%F <> F0.
Proof.
  intros H. destruct (F_eq_dec y F0) as [->|N].
  - apply F1_neq_F0. rewrite <- H. ring.
  - apply Fmd_nonsquare. exists (Finv y).
    assert (K : (- Fd * (y * y) = 1)%F) by (replace (- Fd * (y * y))%F with (1 - (Fd * (y * y) + 1))%F by ring; rewrite H; ring).
    replace (Finv y * Finv y)%F with ((Finv y * Finv y) * (- Fd * (y * y)))%F by (rewrite K; ring).
    field. exact N.
Qed.
Lemma curve_uv x y : on_curve x y <-> ((y * y * Fd + 1) * (x * x) = y * y - 1)%F.
Proof.
  unfold on_curve. split; intros H.
  - replace ((y * y * Fd + 1) * (x * x))%F with (y * y - (y * y - x * x - Fd * (x * x) * (y * y)))%F by ring.
    rewrite H. ring.
  - replace (y * y - x * x)%F with ((y * y - 1) - (y * y * Fd + 1) * (x * x) + 1 + Fd * (x * x) * (y * y))%F by ring.
    rewrite H. ring.
Qed.
Lemma wf_firstn n b : wf_bytes b -> wf_bytes (firstn n b).
Proof. intros W. rewrite <- (firstn_skipn n b) in W. apply Forall_app in W. tauto. Qed.
Lemma firstn_firstn32 (b : bytes) : firstn 32 (firstn 32 b) = firstn 32 b.
Proof. rewrite firstn_firstn. reflexivity. Qed.
Lemma affine_y_ok raw : wf_bytes raw -> length raw = 32%nat \/ length raw = 64%nat ->
  exists y, affine_y raw = Ok y /\ bnd 101 y /\ rF y = y255 raw.
Proof.
  intros W L. exists (fe_decode32 raw).
  destruct (fe_decode32_ok raw W) as [E B]; [lia|].
  split; [|split; [exact B|apply inF_eqp, E]].
  unfold affine_y, new_efe. destruct L as [L|L]; rewrite L; cbn [Nat.eqb orb bind]; unfold fe_decode; rewrite L;
    reflexivity.
Qed.
Lemma bit255_sign raw : wf_bytes raw -> (32 <= length raw)%nat -> bit255 raw = sign255 raw.
Proof.
  intros W L. unfold bit255, sign255.
  assert (E : le_val (firstn 32 raw) = le_val (firstn 31 raw) + 2 ^ 248 * byte_at raw 31).
  { rewrite firstn_byte_at by lia. change (seq 0 32) with (seq 0 31 ++ [31%nat]). rewrite map_app, le_val_app.
    rewrite <- firstn_byte_at by lia. rewrite firstn_length_le by lia. cbn [map le_val].
    change (256 ^ Z.of_nat 31) with (2 ^ 248). lia. }
  assert (R : 0 <= le_val (firstn 31 raw) < 2 ^ 248).
  { pose proof (le_val_bound (firstn 31 raw)) as H. rewrite firstn_length_le in H by lia.
    change (256 ^ Z.of_nat 31) with (2 ^ 248) in H. apply H. apply wf_firstn, W. }
  rewrite E. pose proof (byte_at_byte raw 31 W) as Hb. unfold is_byte in Hb.
  set (b := byte_at raw 31) in *. clearbody b. set (v := le_val (firstn 31 raw)) in *. clearbody v.
  rewrite Z.testbit_odd, Z.shiftr_div_pow2 by lia. change (2 ^ 7) with 128.
  destruct (Z.lt_ge_cases b 128) as [H|H].
  - rewrite Z.div_small by lia. symmetry. apply Z.leb_gt. lia.
  - replace (b / 128) with 1 by (apply Z.div_unique with (b - 128); lia). symmetry. apply Z.leb_le. lia.
Qed.

Definition decodes_ok (raw : bytes) (r : res gcore) : Prop :=
  (exists P g, denotes raw P /\ r = Ok g /\ repc P3 g P) \/
  ((forall P, ~ denotes raw P) /\ r = Err ErrNotOnCurve).
Lemma fix_sign x0 s : (Fneg x0 = s \/ x0 = F0) \/ (Fneg (- x0)%F = s /\ xorb (Fneg x0) s = true).
Proof.
  destruct (F_eq_dec x0 F0) as [->|N]; [left; right; reflexivity|].
  rewrite Fneg_opp by exact N. destruct (Fneg x0), s; auto.
Qed.
Lemma denotes_mk raw x (C : on_curve x (y255 raw)) : (Fneg x = sign255 raw \/ x = F0) ->
  denotes raw (mkpt x (y255 raw) C).
Proof. intros H. split; [reflexivity|exact H]. Qed.
Lemma finish_decode raw x y : wf_bytes raw -> (32 <= length raw)%nat ->
  bnd 101 x -> bnd 101 y -> rF y = y255 raw -> on_curve (rF x) (rF y) ->
  let x' := if xorb (fe_is_negative x) (bit255 raw) then fe_neg x else x in
  exists P, denotes raw P /\ repc P3 (newP3 x' y fe_one (fe_mul x' y)) P.
Proof.
  intros W L Bx By Ey C x'. rewrite Ey in C.
  assert (Bx' : bnd 101 x') by (unfold x'; destruct (xorb _ _); [apply bnd_neg; [exact Bx|lia]|exact Bx]).
  assert (C' : on_curve (rF x') (y255 raw)).
  { unfold x'. destruct (xorb _ _); [|exact C]. rewrite (rF_neg 101) by (exact Bx || lia). apply neg_on, C. }
  assert (S : Fneg (rF x') = sign255 raw \/ rF x' = F0).
  { unfold x'. rewrite (bit255_sign raw W L). rewrite fe_is_negative_rF by bd.
    destruct (F_eq_dec (rF x) F0) as [Z|N].
    - right. destruct (xorb (Fneg (rF x)) (sign255 raw)); [rewrite (rF_neg 101) by (exact Bx || lia); rewrite Z; ring|exact Z].
    - left. destruct (Fneg (rF x)) eqn:E1, (sign255 raw) eqn:E2; cbn [xorb];
        rewrite ?(rF_neg 101) by (exact Bx || lia); rewrite ?Fneg_opp by exact N; rewrite ?E1; reflexivity. }
  exists (mkpt _ _ C'). split; [apply denotes_mk, S|].
  clearbody x'. apply mk_P3; try bd; cbn [px py]; rewrite ?rF_one.
  - exact F1_neq_F0.
  - ring.
  - rewrite Ey. ring.
  - rewrite rF_mul by bd. rewrite Ey. ring.
Qed.
Theorem g_decode_ok raw : wf_bytes raw -> length raw = 32%nat \/ length raw = 64%nat ->
  decodes_ok raw (g_decode raw).
Proof.
  intros W L. assert (L' : (32 <= length raw)%nat) by lia.
  destruct (affine_y_ok raw W L) as (y & Ey & By & Fy).
  unfold g_decode, affine_x. rewrite Ey. cbn [bind].
  assert (Bs : bnd 101 (fe_sq y)) by bd.
  assert (Es : rF (fe_sq y) = (y255 raw * y255 raw)%F) by (rewrite rF_sq by bd; now rewrite Fy).
  set (ys := fe_sq y) in *. clearbody ys.
  assert (Bu : bnd 202 (fe_sub ys fe_one)) by (apply (bnd_sub 101 101); bd || lia).
  assert (Eu : rF (fe_sub ys fe_one) = (y255 raw * y255 raw - 1)%F)
    by (rewrite (rF_sub 101 101) by (bd || lia); rewrite Es, rF_one; reflexivity).
  set (u := fe_sub ys fe_one) in *. clearbody u.
  assert (Bv : bnd 202 (fe_add (fe_mul ys go_d) fe_one)) by (apply (bnd_add 101 101); bd || lia).
  assert (Ev : rF (fe_add (fe_mul ys go_d) fe_one) = (y255 raw * y255 raw * Fd + 1)%F).
  { rewrite (rF_add 101 101) by (bd || lia). rewrite rF_mul by bd. rewrite Es, rF_one, rF_d. reflexivity. }
  set (v := fe_add (fe_mul ys go_d) fe_one) in *. clearbody v.
  destruct (rF_sqrt u v) as [Ex Bx]; [bd|bd|].
  set (x := fe_sqrt u v) in *. clearbody x.
  assert (Bvx : bnd 101 (fe_mul (fe_sq x) v)) by bd.
  assert (Evx : rF (fe_mul (fe_sq x) v) = (rF v * (rF x * rF x))%F)
    by (rewrite rF_mul by bd; rewrite rF_sq by bd; ring).
  set (vx := fe_mul (fe_sq x) v) in *. clearbody vx.
  assert (Bm : bnd 303 (fe_sub vx u)) by (apply (bnd_sub 101 202); bd || lia).
  assert (Bp : bnd 303 (fe_add vx u)) by (apply (bnd_add 101 202); bd || lia).
  destruct (fe_is_nonzero (fe_sub vx u)) eqn:N1; [destruct (fe_is_nonzero (fe_add vx u)) eqn:N2|]; cbn [bind].
  - right. split; [|reflexivity]. intros P [HP _].
    apply fe_is_nonzero_rF in N1, N2; [|bd..].
    rewrite (rF_sub 101 202) in N1 by (bd || lia). rewrite (rF_add 101 202) in N2 by (bd || lia).
    pose proof (proj1 (curve_uv _ _) (pon P)) as C. rewrite HP in C.
    assert (Nv : rF v <> F0) by (rewrite Ev; intros H; apply (den_v (y255 raw)); rewrite <- H; ring).
    rewrite <- Ev, <- Eu in C.
    destruct (sqrt_cand_complete _ _ _ Nv C) as [H|H]; rewrite <- Ex, <- Evx in H.
    + apply N1. rewrite H. ring.
    + apply N2. rewrite H. ring.
  - left. apply fe_is_nonzero_rF in N1; [|bd]. apply fe_is_nonzero_false in N2; [|bd].
    rewrite (rF_add 101 202) in N2 by (bd || lia).
    assert (Bi : bnd 101 (fe_mul x fe_I)) by bd.
    assert (Ei : rF (fe_mul x fe_I) = (rF x * Fi)%F) by (rewrite rF_mul by bd; now rewrite rF_I).
    set (xi := fe_mul x fe_I) in *. clearbody xi.
    assert (C : on_curve (rF xi) (rF y)).
    { rewrite Fy. apply curve_uv. rewrite <- Ev, <- Eu, Ei. apply Fi_fix. rewrite <- Evx.
      replace (rF vx) with (rF vx + rF u - rF u)%F by ring. rewrite N2. ring. }
    destruct (finish_decode raw xi y W L' Bi By Fy C) as (P & HP & R).
    exists P. eexists. split; [exact HP|]. split; [reflexivity|exact R].
  - left. apply fe_is_nonzero_false in N1; [|bd].
    rewrite (rF_sub 101 202) in N1 by (bd || lia).
    assert (C : on_curve (rF x) (rF y)).
    { rewrite Fy. apply curve_uv. rewrite <- Ev, <- Eu, <- Evx.
      replace (rF vx) with (rF vx - rF u + rF u)%F by ring. rewrite N1. ring. }
    destruct (finish_decode raw x y W L' Bx By Fy C) as (P & HP & R).
    exists P. eexists. split; [exact HP|]. split; [reflexivity|exact R].
Qed.
Theorem g_decode_bad_length raw : length raw <> 32%nat -> length raw <> 64%nat ->
  g_decode raw = Err ErrEncodedField.
Proof.
  intros A B. unfold g_decode, affine_x, affine_y, new_efe.
  apply Nat.eqb_neq in A, B. rewrite A, B. reflexivity.
Qed.
Theorem g_decode_enc P : exists g, g_decode (enc_point P) = Ok g /\ repc P3 g P.
Proof.
  destruct (g_decode_ok (enc_point P) (enc_point_wf P)) as [(Q & g & D & E & R)|[N _]].
  - left. apply enc_point_length.
  - exists g. split; [exact E|]. now rewrite <- (denotes_unique _ _ _ D (enc_denotes P)).
  - destruct (N P). apply enc_denotes.
Qed.
