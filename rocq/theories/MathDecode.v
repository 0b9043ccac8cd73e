(** Proofs about [math_ToGroupElement], [math_ToRepresentation] of PRECOMPUTED elements and the random
    values of math.go. *)
From Coq Require Import List ZArith Lia Bool Znumtheory Ring Field.
From Verif Require Import GoBase FieldModel FieldSpec FieldProofs ByteLemmas EncodeProofs Fp Curve BaseCert BasePoint
  GroupModel GroupSpec FieldPow GroupProofs PointCodec ApiModel ApiProofs PropGroupLemmas MathModel MathSpec MathProofs MathAdd.
Import ListNotations.
Open Scope Z_scope.

(** ** the square root candidate *)
Lemma math_sqrt_F u v : math_sqrt u v = val (Fsqrt_cand (inF u) (inF v)).
Proof.
  unfold math_sqrt, Fsqrt_cand. cbv zeta. change (2 ^ 252 - 3) with e252.
  rewrite <- val_inF. f_equal. rewrite !inF_mul, inF_mod, inF_val.
  replace (v ^ 3) with (v * v * v) by ring. replace (v ^ 7) with (v * v * v * (v * v * v) * v) by ring.
  rewrite !inF_mul.
  set (a := inF u). set (b := inF v).
  replace (a * (b * b * b * (b * b * b) * b))%F with (b * b * b * (b * b * b) * b * a)%F by ring.
  ring.
Qed.
Lemma mod0_F z : (z mod p25519 =? 0) = true <-> inF z = F0.
Proof. rewrite Z.eqb_eq. apply inF_0_mod. Qed.
Lemma mod0_F_false z : (z mod p25519 =? 0) = false <-> inF z <> F0.
Proof. rewrite Z.eqb_neq, inF_0_mod. reflexivity. Qed.

Definition gax_u (y : Z) : F := (inF y * inF y - 1)%F.
Definition gax_v (y : Z) : F := (Fd * (inF y * inF y) + 1)%F.
Definition gax_x (y : Z) : F := Fsqrt_cand (gax_u y) (gax_v y).
(** the parity of the number x is all that is left of it *)
Definition gax_out (x : F) (neg : bool) : Z :=
  if Z.odd (val x) then if neg then 1 else p25519 - 1 else 0.

Lemma gax_finish (x : F) (neg : bool) :
  (let x := val x mod 2 in
   let isNegative := x =? 1 in
   Ok (if (neg && negb isNegative) || (negb neg && isNegative) then (- x) mod p25519 else x)) =
  Ok (gax_out x neg).
Proof.
  cbv zeta. unfold gax_out. rewrite Zmod_odd. destruct (Z.odd (val x)), neg; reflexivity.
Qed.
Lemma gax_eq y neg : math_GetAffineX y neg =
  if F_eq_dec (gax_v y * gax_x y)%F (gax_u y) then Ok (gax_out (gax_x y) neg)
  else if F_eq_dec (gax_v y * gax_x y)%F (- gax_u y)%F then Ok (gax_out (gax_x y * Fi)%F neg)
  else Err ErrNotGroupElement.
Proof.
  unfold math_GetAffineX. rewrite math_sqrt_F, !inF_mod.
  assert (Eu : inF (y * y - 1) = gax_u y) by (rewrite inF_sub, inF_mul; reflexivity).
  assert (Ev : inF (math_D * y * y + 1) = gax_v y).
  { rewrite inF_add, !inF_mul, math_D_F. unfold gax_v. change (inF 1) with F1. ring. }
  rewrite Eu, Ev. fold (gax_x y). set (x := gax_x y).
  set (u := gax_u y) in *. set (v := gax_v y) in *.
  set (uz := (y * y - 1) mod p25519). set (vz := (math_D * y * y + 1) mod p25519).
  assert (Euz : inF uz = u) by (unfold uz; rewrite inF_mod; exact Eu).
  assert (Evz : inF vz = v) by (unfold vz; rewrite inF_mod; exact Ev).
  clearbody uz vz. cbv zeta.
  assert (Em : inF (vz * val x - uz) = (v * x - u)%F) by (rewrite inF_sub, inF_mul, Euz, Evz, inF_val; reflexivity).
  assert (Ep : inF (vz * val x + uz) = (v * x + u)%F) by (rewrite inF_add, inF_mul, Euz, Evz, inF_val; reflexivity).
  assert (Ei : (val x * math_IntsToBigInteger fe_I) mod p25519 = val (x * Fi)%F).
  { rewrite ints_value, <- val_inF, inF_mul, inF_val. change (inF (feval fe_I)) with (rF fe_I). now rewrite rF_I. }
  destruct ((vz * val x - uz) mod p25519 =? 0) eqn:C1; cbn [negb].
  - apply mod0_F in C1. rewrite Em in C1.
    destruct (F_eq_dec (v * x)%F u) as [_|N].
    + cbn [bind]. apply gax_finish.
    + exfalso. apply N. replace (v * x)%F with (v * x - u + u)%F by ring. rewrite C1. ring.
  - apply mod0_F_false in C1. rewrite Em in C1.
    destruct (F_eq_dec (v * x)%F u) as [E|_].
    { exfalso. apply C1. rewrite E. ring. }
    destruct ((vz * val x + uz) mod p25519 =? 0) eqn:C2; cbn [negb].
    + apply mod0_F in C2. rewrite Ep in C2.
      destruct (F_eq_dec (v * x)%F (- u)%F) as [_|N].
      * cbn [bind]. rewrite Ei. apply gax_finish.
      * exfalso. apply N. replace (v * x)%F with (v * x + u - u)%F by ring. rewrite C2. ring.
    + apply mod0_F_false in C2. rewrite Ep in C2.
      destruct (F_eq_dec (v * x)%F (- u)%F) as [E|_]; [|reflexivity].
      exfalso. apply C2. rewrite E. ring.
Qed.

(** ** points of the curve with x^2 = 1: none *)
Definition dn1 : F := inF (243331 * 243332).
Lemma dn1_pow : powp (val dn1) half_p = p25519 - 1.
Proof. vm_compute. reflexivity. Qed.
Lemma dn1_nonsquare : ~ is_square dn1.
Proof.
  intros S.
  apply square_euler in S; [|intros E; apply (f_equal val) in E; vm_compute in E; discriminate E].
  pose proof (powp_val dn1 half_p) as P. rewrite dn1_pow, half_p_eq, S in P.
  vm_compute in P. discriminate P.
Qed.
Lemma no_unit_x y : ~ on_curve F1 y.
Proof.
  unfold on_curve. intros H. apply dn1_nonsquare. exists (inF 243331 * y)%F.
  assert (E : (y * y * inF 243331 = inF 243332)%F).
  { change 243331 with (121666 + 121665) at 1. rewrite inF_add.
    replace (y * y * (inF 121666 + inF 121665))%F
      with ((y * y - F1 * F1 - (1 + Fd * (F1 * F1) * (y * y))) * inF 121666 + inF 121666 + inF 121666
            + y * y * (Fd * inF 121666 + inF 121665))%F by ring.
    rewrite H, Fd_eq.
    replace ((1 + Fd * (F1 * F1) * (y * y) - (1 + Fd * (F1 * F1) * (y * y))) * inF 121666 + inF 121666 + inF 121666
            + y * y * (- inF 121665 + inF 121665))%F with (inF 121666 + inF 121666)%F by ring.
    rewrite <- inF_add. reflexivity. }
  transitivity (inF 243331 * (y * y * inF 243331))%F; [ring|]. rewrite E. unfold dn1. rewrite inF_mul. reflexivity.
Qed.
Lemma no_munit_x y : ~ on_curve (- F1)%F y.
Proof.
  intros H. apply (no_unit_x y). unfold on_curve in *.
  replace (F1 * F1)%F with (- F1 * - F1)%F by ring. exact H.
Qed.

(** ** ToGroupElement *)
Definition clear_top (raw : bytes) : bytes := upd raw 31 (Z.land (byte_at raw 31) 0x7f).
Lemma split_top raw : wf_bytes raw -> length raw = 32%nat ->
  le_val raw = le_val (firstn 31 raw) + 2 ^ 248 * byte_at raw 31 /\ 0 <= le_val (firstn 31 raw) < 2 ^ 248.
Proof.
  intros W L. split.
  - rewrite <- (firstn_all2 (n := 32) raw) at 1 by lia.
    rewrite firstn_byte_at by lia. change (seq 0 32) with (seq 0 31 ++ [31%nat]). rewrite map_app, le_val_app.
    rewrite <- firstn_byte_at by lia. rewrite firstn_length_le by lia. cbn [map le_val].
    change (256 ^ Z.of_nat 31) with (2 ^ 248). lia.
  - pose proof (le_val_bound (firstn 31 raw)) as H. rewrite firstn_length_le in H by lia.
    change (256 ^ Z.of_nat 31) with (2 ^ 248) in H. apply H. apply wf_firstn, W.
Qed.
Lemma clear_top_wf raw : wf_bytes raw -> wf_bytes (clear_top raw).
Proof.
  intros W. apply upd_wf; [exact W|]. pose proof (byte_at_byte raw 31 W) as H. unfold is_byte in *.
  change 127 with (2 ^ 7 - 1). rewrite land_mask by lia.
  pose proof (Z.mod_pos_bound (byte_at raw 31) (2 ^ 7) eq_refl). change (2 ^ 7) with 128 in *. lia.
Qed.
Lemma clear_top_val raw : wf_bytes raw -> length raw = 32%nat -> le_val (clear_top raw) = le_val raw mod 2 ^ 255.
Proof.
  intros W L. destruct (split_top raw W L) as [E R].
  unfold clear_top. rewrite upd_val by lia. rewrite E. pose proof (byte_at_byte raw 31 W) as Hb. unfold is_byte in Hb.
  set (b := byte_at raw 31) in *. clearbody b. set (v := le_val (firstn 31 raw)) in *. clearbody v.
  change 127 with (2 ^ 7 - 1). rewrite land_mask by lia. change (256 ^ Z.of_nat 31) with (2 ^ 248).
  change (2 ^ 7) with 128. pose proof (Z.div_mod b 128 ltac:(lia)). pose proof (Z.mod_pos_bound b 128 ltac:(lia)).
  apply Z.mod_unique with (b / 128); lia.
Qed.
Lemma sign_shift raw : wf_bytes raw -> length raw = 32%nat ->
  negb (Z.shiftr (byte_at raw 31) 7 =? 0) = sign255 raw.
Proof.
  intros W L. unfold sign255. rewrite (firstn_all2 (n := 32) raw) by lia.
  destruct (split_top raw W L) as [E R]. rewrite E.
  pose proof (byte_at_byte raw 31 W) as Hb. unfold is_byte in Hb.
  set (b := byte_at raw 31) in *. clearbody b. set (v := le_val (firstn 31 raw)) in *. clearbody v.
  rewrite Z.shiftr_div_pow2 by lia. change (2 ^ 7) with 128.
  destruct (Z.lt_ge_cases b 128) as [H|H].
  - rewrite Z.div_small by lia. symmetry. apply Z.leb_gt. lia.
  - replace (b / 128) with 1 by (apply Z.div_unique with (b - 128); lia). symmetry. apply Z.leb_le. lia.
Qed.

(** what the element contains *)
Definition has_coords (r : gcore) (x y : F) : Prop :=
  g_cs r = P3 /\ rF (gX r) = x /\ rF (gY r) = y /\ rF (gZ r) = F1 /\
  bnd 101 (gX r) /\ bnd 101 (gY r) /\ bnd 101 (gZ r) /\
  exists t, gT r = Some t /\ rF t = (x * y)%F /\ bnd 101 t.
Lemma has_coords_rep r x y P : has_coords r x y -> (rep r P <-> x = px P /\ y = py P).
Proof.
  intros (C & Ex & Ey & Ez & Bx & By & Bz & t & Et & Rt & Bt). split; intros H.
  - pose proof (rep_P3 r P (conj C H)) as (X & Y & Z & T & -> & _ & _ & _ & _ & _ & EX & EY & _).
    cbn [newP3 gX gY gZ] in *. rewrite Ez in EX, EY. rewrite <- Ex, <- Ey, EX, EY. split; ring.
  - destruct H as [-> ->]. destruct r as [c X Y Z T]. cbn in *. subst c T.
    assert (K : repc P3 (newP3 X Y Z t) P); [|apply K].
    apply mk_P3; try (apply b110; assumption); rewrite ?Ez; try (apply F1_neq_F0); rewrite ?Ex, ?Ey, ?Rt; ring.
Qed.

Lemma gax_out_range x neg : 0 <= gax_out x neg < p25519.
Proof. unfold gax_out, p25519. destruct (Z.odd (val x)), neg; lia. Qed.
Lemma gax_out_F x neg :
  inF (gax_out x neg) = F0 \/ (inF (gax_out x neg) = F1 /\ neg = true) \/ (inF (gax_out x neg) = (- F1)%F /\ neg = false).
Proof.
  unfold gax_out. destruct (Z.odd (val x)); [right|left; reflexivity]. destruct neg; [left|right]; split; try reflexivity.
  rewrite inF_sub. replace (inF p25519) with F0 by (apply F_eq; reflexivity). change (inF 1) with F1. ring.
Qed.

Lemma toGroup_short raw : (length raw < 32)%nat -> math_ToGroupElement raw = (raw, Panic).
Proof. intros L. unfold math_ToGroupElement. apply Nat.ltb_lt in L. rewrite L. reflexivity. Qed.
Lemma toGroup_eq raw : wf_bytes raw -> length raw = 32%nat ->
  fst (math_ToGroupElement raw) = clear_top raw /\
  match math_GetAffineX (le_val raw mod 2 ^ 255) (sign255 raw) with
  | Ok x => exists r, snd (math_ToGroupElement raw) = Ok r /\ has_coords r (inF x) (y255 raw)
  | _ => snd (math_ToGroupElement raw) = Err ErrNotGroupElement
  end.
Proof.
  intros W L. unfold math_ToGroupElement. rewrite L. change (Nat.ltb 32 32) with false. cbn iota.
  rewrite sign_shift by assumption. fold (clear_top raw). cbn [fst snd]. split; [reflexivity|].
  rewrite bytes_value by (apply clear_top_wf, W). rewrite clear_top_val by assumption.
  assert (Ey : y255 raw = inF (le_val raw mod 2 ^ 255)).
  { unfold y255. rewrite firstn_all2 by lia. reflexivity. }
  rewrite Ey. set (y := le_val raw mod 2 ^ 255).
  assert (Ry : 0 <= y < 2 ^ 255) by (apply Z.mod_pos_bound; reflexivity). clearbody y.
  rewrite gax_eq.
  assert (K : forall x, 0 <= x < p25519 -> exists r,
    (do fx <- math_ToFieldElement x; do fy <- math_ToFieldElement y;
     do ft <- math_ToFieldElement ((x * y) mod p25519); Ok (newP3 fx fy fe_one ft)) = Ok r /\ has_coords r (inF x) (inF y)).
  { intros x Rx. destruct (to_fe_ok x) as (fx & E1 & R1 & B1); [unfold p25519 in Rx; lia|].
    destruct (to_fe_ok y Ry) as (fy & E2 & R2 & B2). destruct (to_fe_mod (x * y)) as (ft & E3 & R3 & B3).
    rewrite E1, E2, E3. cbn [bind]. eexists. split; [reflexivity|]. unfold has_coords, newP3. cbn [g_cs gX gY gZ gT].
    cj; auto; [bd|]. exists ft. rewrite R3, inF_mul. auto. }
  destruct (F_eq_dec _ _); [|destruct (F_eq_dec _ _)]; cbn [bind]; [apply K, gax_out_range|apply K, gax_out_range|reflexivity].
Qed.

Lemma toGroup_arg raw : wf_bytes raw -> length raw = 32%nat ->
  let a := fst (math_ToGroupElement raw) in
  length a = 32%nat /\ firstn 31 a = firstn 31 raw /\ le_val a = le_val raw mod 2 ^ 255.
Proof.
  intros W L. cbv zeta. rewrite (proj1 (toGroup_eq raw W L)).
  split; [unfold clear_top; rewrite upd_length; exact L|]. split; [|apply clear_top_val; assumption].
  rewrite !firstn_byte_at by (unfold clear_top; rewrite ?upd_length; lia). apply map_ext_in. intros j Hj.
  apply in_seq in Hj. unfold clear_top. rewrite upd_at by lia. replace (Nat.eqb j 31) with false; [reflexivity|].
  symmetry. apply Nat.eqb_neq. lia.
Qed.

(** the two y coordinates with x = 0 are decoded; nothing else is *)
Lemma F_sq_1 y : (y * y = F1)%F -> y = F1 \/ y = (- F1)%F.
Proof. intros H. apply F_sq_eq. rewrite H. ring. Qed.
Theorem toGroup_exact raw : wf_bytes raw -> length raw = 32%nat ->
  (y255 raw = F1 \/ y255 raw = (- F1)%F ->
    exists r, snd (math_ToGroupElement raw) = Ok r /\ forall P, denotes raw P -> repc P3 r P) /\
  (y255 raw <> F1 -> y255 raw <> (- F1)%F ->
    snd (math_ToGroupElement raw) = Err ErrNotGroupElement \/
    exists r, snd (math_ToGroupElement raw) = Ok r /\ forall P, ~ rep r P).
Proof.
  intros W L. destruct (toGroup_eq raw W L) as [_ H]. rewrite gax_eq in H.
  set (y := le_val raw mod 2 ^ 255) in *.
  assert (Ey : y255 raw = inF y) by (unfold y255, y; rewrite firstn_all2 by lia; reflexivity).
  split.
  - intros Y. assert (U : gax_u y = F0).
    { unfold gax_u. rewrite <- Ey. destruct Y as [->| ->]; ring. }
    assert (X0 : gax_x y = F0) by (unfold gax_x, Fsqrt_cand; rewrite U; ring).
    destruct (F_eq_dec (gax_v y * gax_x y)%F (gax_u y)) as [_|N].
    2:{ exfalso. apply N. rewrite U, X0. ring. }
    destruct H as (r & E & C). exists r. split; [exact E|]. intros P [D _].
    unfold gax_out in C. rewrite X0 in C. change (Z.odd (val F0)) with false in C. cbn iota in C.
    split; [apply C|]. apply (has_coords_rep r _ _ P C). split; [|symmetry; exact D].
    pose proof (proj1 (curve_uv _ _) (pon P)) as K. rewrite D, Ey in K.
    assert (K' : (gax_v y * (px P * px P) = F0)%F) by (rewrite <- U; unfold gax_v, gax_u; rewrite <- K; ring).
    destruct (F_eq_dec (px P) F0) as [->|N]; [reflexivity|]. exfalso.
    apply (F_mul_nz (gax_v y) (px P * px P)%F); [apply den_v|apply F_mul_nz; assumption|exact K'].
  - intros N1 N2.
    assert (K : forall x r, has_coords r (inF (gax_out x (sign255 raw))) (y255 raw) -> forall P, ~ rep r P).
    { intros x r C P R.
      apply (has_coords_rep r _ _ P C) in R as [EX EYP].
      destruct (gax_out_F x (sign255 raw)) as [G|[[G _]|[G _]]]; rewrite G in EX.
      - pose proof (pon P) as Co. rewrite <- EX, <- EYP in Co. unfold on_curve in Co.
        destruct (F_sq_1 (y255 raw)); [|contradiction|contradiction].
        replace (y255 raw * y255 raw)%F with (y255 raw * y255 raw - F0 * F0)%F by ring. rewrite Co. ring.
      - pose proof (pon P) as Co. rewrite <- EX in Co. exact (no_unit_x _ Co).
      - pose proof (pon P) as Co. rewrite <- EX in Co. exact (no_munit_x _ Co). }
    destruct (F_eq_dec _ _); [|destruct (F_eq_dec _ _)]; [| |left; exact H]; right;
      destruct H as (r & E & C); exists r; (split; [exact E|]); exact (K _ r C).
Qed.
(** the encodings of curve points are rejected *)
Theorem toGroup_rejects raw P : wf_bytes raw -> length raw = 32%nat -> denotes raw P ->
  px P <> F0 -> py P <> F0 -> snd (math_ToGroupElement raw) = Err ErrNotGroupElement.
Proof.
  intros W L [D _] NX NY. destruct (toGroup_eq raw W L) as [_ H]. rewrite gax_eq in H.
  set (y := le_val raw mod 2 ^ 255) in *.
  assert (Ey : y255 raw = inF y) by (unfold y255, y; rewrite firstn_all2 by lia; reflexivity).
  assert (Nv : gax_v y <> F0) by apply den_v.
  assert (C : (gax_v y * (px P * px P) = gax_u y)%F).
  { pose proof (proj1 (curve_uv _ _) (pon P)) as K. rewrite D, Ey in K. unfold gax_v, gax_u. rewrite <- K. ring. }
  set (x0 := gax_x y) in *.
  assert (Q : (x0 * x0 = px P * px P)%F \/ (x0 * x0 = - (px P * px P))%F).
  { destruct (sqrt_cand_complete _ _ _ Nv C) as [E|E]; fold (gax_x y) in E; fold x0 in E; [left|right];
      apply (F_mul_cancel _ _ (gax_v y) Nv).
    - replace (x0 * x0 * gax_v y)%F with (gax_v y * (x0 * x0))%F by ring. rewrite E, <- C. ring.
    - replace (x0 * x0 * gax_v y)%F with (gax_v y * (x0 * x0))%F by ring. rewrite E, <- C. ring. }
  (* v x0 = +-u gives x0 = +-px^2, so px^4 = +-px^2 *)
  assert (Bad : (x0 = px P * px P)%F \/ (x0 = - (px P * px P))%F -> False).
  { intros S. set (a := px P) in *.
    assert (S2 : (x0 * x0 = a * a * (a * a))%F) by (destruct S as [->| ->]; ring).
    assert (NA : (a * a)%F <> F0) by (apply F_mul_nz; exact NX).
    destruct Q as [Q|Q]; rewrite Q in S2.
    - assert (E1 : (a * a)%F = F1).
      { apply (F_mul_cancel _ _ (a * a)%F NA). rewrite <- S2. ring. }
      pose proof (pon P) as Co. destruct (F_sq_1 a E1) as [E|E]; unfold a in E; rewrite E in Co;
        [exact (no_unit_x _ Co)|exact (no_munit_x _ Co)].
    - assert (E1 : (a * a)%F = (- F1)%F).
      { apply (F_mul_cancel _ _ (a * a)%F NA). rewrite <- S2. ring. }
      pose proof (pon P) as Co. unfold on_curve in Co. fold a in Co. rewrite E1 in Co.
      assert (E2 : ((1 + Fd) * (py P * py P) = F0)%F).
      { replace ((1 + Fd) * (py P * py P))%F with ((py P * py P - - F1) - (1 + Fd * - F1 * (py P * py P)))%F by ring.
        rewrite Co. ring. }
      apply (F_mul_nz (1 + Fd)%F (py P * py P)%F); [|apply F_mul_nz; exact NY|exact E2].
      intros Z. apply Fmd_nonsquare. exists F1. replace (- Fd)%F with (1 - (1 + Fd))%F by ring. rewrite Z. ring. }
  destruct (F_eq_dec (gax_v y * x0)%F (gax_u y)) as [E|_].
  { exfalso. apply Bad. left. apply (F_mul_cancel _ _ (gax_v y) Nv).
    replace (x0 * gax_v y)%F with (gax_v y * x0)%F by ring. rewrite E, <- C. ring. }
  destruct (F_eq_dec (gax_v y * x0)%F (- gax_u y)%F) as [E|_]; [|exact H].
  exfalso. apply Bad. right. apply (F_mul_cancel _ _ (gax_v y) Nv).
  replace (x0 * gax_v y)%F with (gax_v y * x0)%F by ring. rewrite E, <- C. ring.
Qed.

(** ** ToRepresentation of a PRECOMPUTED element *)
Lemma getNeeCoor_coords (x y : F) n : exists r, math_getNeeCoor (val x) (val y) n = Ok r /\ g_cs r = n /\
  forall P, rep r P -> px P = x /\ py P = y.
Proof.
  unfold math_getNeeCoor.
  destruct (to_fe_val x) as (fx & Ex & Rx & Bx). destruct (to_fe_val y) as (fy & Ey & Ry & By).
  rewrite Ex, Ey. cbn [bind].
  destruct (to_fe_mod (val x * val y)) as (ft & Et & Rt & Bt).
  destruct (to_fe_mod (val y + val x)) as (fs & Es & Rs & Bs).
  destruct (to_fe_mod (val y - val x)) as (fd & Ed & Rd & Bd).
  destruct (to_fe_mod (math_D * 2 * val x * val y)) as (fz & Ez & Rz & Bz).
  rewrite inF_add, !inF_val in Rs. rewrite inF_sub, !inF_val in Rd.
  pose proof rF_one_eq as R1.
  assert (Half : forall a b c d, (a + b = c + d)%F -> (a - b = c - d)%F -> b = d /\ a = c).
  { intros a b c d H1 H2. pose proof F2_nz as N2. split; apply (F_mul_cancel _ _ (inF 2) N2).
    - change 2 with (1 + 1). rewrite inF_add. change (inF 1) with F1.
      replace (b * (F1 + F1))%F with ((a + b) - (a - b))%F by ring. rewrite H1, H2. ring.
    - change 2 with (1 + 1). rewrite inF_add. change (inF 1) with F1.
      replace (a * (F1 + F1))%F with ((a + b) + (a - b))%F by ring. rewrite H1, H2. ring. }
  destruct n.
  - eexists. split; [reflexivity|]. split; [reflexivity|]. intros P [_ R]. cbn in R. destruct R as [A B].
    rewrite <- A, <- B, Rx, Ry. auto.
  - eexists. split; [reflexivity|]. split; [reflexivity|]. intros P [_ R]. cbn [newP2 g_cs gX gY gZ] in R.
    destruct R as (_ & A & B). rewrite R1 in A, B. rewrite <- Rx, <- Ry, A, B. split; ring.
  - rewrite Et. cbn [bind]. eexists. split; [reflexivity|]. split; [reflexivity|]. intros P [_ R].
    cbn [newP3 g_cs gX gY gZ] in R. destruct R as (_ & A & B & _). rewrite R1 in A, B.
    rewrite <- Rx, <- Ry, A, B. split; ring.
  - eexists. split; [reflexivity|]. split; [reflexivity|]. intros P [_ R]. cbn [newP1xP1 g_cs gX gY gZ gT] in R.
    destruct R as (t & Et' & _ & _ & A & B). injection Et' as <-. rewrite R1 in A, B.
    rewrite <- Rx, <- Ry, A, B. split; ring.
  - rewrite Es, Ed, Ez. cbn [bind]. eexists. split; [reflexivity|]. split; [reflexivity|]. intros P [_ R].
    cbn [newPrecomputed g_cs gX gY gZ] in R. destruct R as (A & B & _). rewrite Rs in A. rewrite Rd in B.
    apply Half; symmetry; assumption.
  - rewrite Es, Ed, Ez. cbn [bind]. eexists. split; [reflexivity|]. split; [reflexivity|]. intros P [_ R].
    cbn [newCached g_cs gX gY gZ] in R. destruct R as (_ & A & B & _). rewrite Rs, R1 in A. rewrite Rd, R1 in B.
    apply Half; [rewrite A; ring|rewrite B; ring].
Qed.

Lemma inF_neq a b : (a mod p25519 =? b mod p25519) = false -> inF a <> inF b.
Proof. intros H E. apply Z.eqb_neq in H. apply H. rewrite <- !val_inF, E. reflexivity. Qed.
(** no curve point is a fixed point of (x, y) -> (1/(8 d x^2 y), 1/(4 y)) *)
Lemma no_fixpoint P : (inF 8 * Fd * (px P * px P) * py P * px P = F1)%F -> (inF 4 * py P * py P = F1)%F -> False.
Proof.
  intros H1 H2. pose proof (proj1 (curve_uv _ _) (pon P)) as C. set (x := px P) in *. set (y := py P) in *.
  set (b := inF 121666). set (a := inF 121665). pose proof Fd_eq as D. fold a b in D.
  (* x^2 (d + 4) = -3 *)
  assert (E1 : (x * x * (Fd + inF 4) = - inF 3)%F).
  { assert (A : (inF 4 * ((y * y * Fd + 1) * (x * x)) = inF 4 * (y * y - 1))%F) by (now rewrite C).
    replace (x * x * (Fd + inF 4))%F with (inF 4 * ((y * y * Fd + 1) * (x * x)) + x * x * Fd * (F1 - inF 4 * y * y))%F by ring.
    rewrite A, H2. replace (inF 4 * (y * y - 1))%F with (inF 4 * y * y - inF 4)%F by ring. rewrite H2.
    change 4 with (1 + 3). rewrite inF_add. change (inF 1) with F1. ring. }
  (* (8 d x^3 y)^2 = 1 gives 16 d^2 x^6 = 1 *)
  assert (E2 : (inF 16 * (Fd * Fd) * (x * x) * (x * x) * (x * x) = F1)%F).
  { transitivity (inF 16 * (Fd * Fd) * (x * x) * (x * x) * (x * x) * (inF 4 * y * y))%F; [rewrite H2; ring|].
    transitivity ((inF 8 * Fd * (x * x) * y * x) * (inF 8 * Fd * (x * x) * y * x))%F; [|rewrite H1; ring].
    change 16 with (4 * 4). change 8 with (4 * 2). rewrite !inF_mul. change 4 with (2 * 2). rewrite !inF_mul. ring. }
  assert (E3 : (inF 16 * (Fd * Fd) * (- inF 27) = (Fd + inF 4) * (Fd + inF 4) * (Fd + inF 4))%F).
  { transitivity ((inF 16 * (Fd * Fd) * (x * x) * (x * x) * (x * x)) * ((Fd + inF 4) * (Fd + inF 4) * (Fd + inF 4)))%F;
      [|rewrite E2; ring].
    transitivity (inF 16 * (Fd * Fd) * ((x * x * (Fd + inF 4)) * (x * x * (Fd + inF 4)) * (x * x * (Fd + inF 4))))%F; [|ring].
    rewrite E1. change 27 with (3 * 3 * 3). rewrite !inF_mul. ring. }
  assert (E4 : (inF 16 * (a * a) * b * (- inF 27) = (inF 4 * b - a) * (inF 4 * b - a) * (inF 4 * b - a))%F).
  { transitivity (b * b * b * (inF 16 * (Fd * Fd) * (- inF 27)))%F.
    - transitivity (inF 16 * ((Fd * b) * (Fd * b)) * b * (- inF 27))%F; [rewrite D; ring|ring].
    - rewrite E3. transitivity ((Fd * b + inF 4 * b) * (Fd * b + inF 4 * b) * (Fd * b + inF 4 * b))%F; [ring|].
      rewrite D. ring. }
  unfold a, b in E4. rewrite <- inF_opp, <- !inF_mul, <- inF_sub, <- !inF_mul in E4. revert E4.
  apply inF_neq. vm_compute. reflexivity.
Qed.

Theorem toRepresentation_prec g P n : repc PRECOMPUTED g P ->
  (px P = F0 \/ py P = F0 -> math_ToRepresentation g n = Panic) /\
  (px P <> F0 -> py P <> F0 -> exists r, math_ToRepresentation g n = Ok r /\ g_cs r = n /\ ~ rep r P).
Proof.
  intros R. pose proof (rep_prec g P R) as (X & Y & Z & T & -> & BX & BY & BZ & EX & EY & EZ).
  unfold math_ToRepresentation. cbn [newPrecomputed g_cs gX gY gZ].
  rewrite !field_value by (eapply b1000; [eassumption|lia]).
  assert (E1 : inF ((val (rF X) - val (rF Y)) * (val (rF Z) * 2)) = (inF 8 * Fd * (px P * px P) * py P)%F).
  { rewrite !inF_mul, inF_sub, !inF_val, EX, EY, EZ. change 8 with (2 * 2 * 2). rewrite !inF_mul.
    change (inF 2) with (inF (1 + 1)). rewrite inF_add. change (inF 1) with F1. ring. }
  assert (E2 : inF ((val (rF X) + val (rF Y)) * 2) = (inF 4 * py P)%F).
  { rewrite !inF_mul, inF_add, !inF_val, EX, EY. change 4 with (2 * 2). rewrite !inF_mul.
    change (inF 2) with (inF (1 + 1)). rewrite inF_add. change (inF 1) with F1. ring. }
  assert (N8 : inF 8 <> F0) by (apply (inF_neq 8 0); reflexivity).
  assert (N4 : inF 4 <> F0) by (apply (inF_neq 4 0); reflexivity).
  split.
  - intros H. rewrite mod_inverse_nil; [reflexivity|]. rewrite E1. destruct H as [-> | ->]; ring.
  - intros NX NY.
    assert (M1 : (inF 8 * Fd * (px P * px P) * py P)%F <> F0).
    { repeat apply F_mul_nz; try assumption. apply Fd_nz. }
    assert (M2 : (inF 4 * py P)%F <> F0) by (apply F_mul_nz; assumption).
    rewrite mod_inverse_ok by (rewrite E1; exact M1). cbn [bind].
    rewrite mod_inverse_ok by (rewrite E2; exact M2). cbn [bind]. rewrite E1, E2.
    rewrite <- !(val_inF (val _)), !inF_val.
    destruct (getNeeCoor_coords (Finv (inF 8 * Fd * (px P * px P) * py P))%F (Finv (inF 4 * py P))%F n) as (r & E & C & K).
    exists r. split; [exact E|]. split; [exact C|]. intros RP. destruct (K P RP) as [KX KY].
    apply (no_fixpoint P).
    + rewrite KX at 3. transitivity (Finv (inF 8 * Fd * (px P * px P) * py P) * (inF 8 * Fd * (px P * px P) * py P))%F; [ring|].
      apply Finv_l, M1.
    + rewrite KY at 2. transitivity (Finv (inF 4 * py P) * (inF 4 * py P))%F; [ring|]. apply Finv_l, M2.
Qed.

(** ** random values *)
Definition fe_const : fe := let a := 2 ^ 24 in Fe a a a a a a a a a a.
Lemma random_limbs_ok n : forall src, (2 * n <= length src)%nat ->
  random_limbs n src = Ok (repeat (2 ^ 24) n, skipn (2 * n) src).
Proof.
  induction n as [|n IH]; intros src L; [reflexivity|].
  cbn [random_limbs]. unfold read_or_panic, read_full.
  replace (Nat.ltb (length src) 2) with false by (symmetry; apply Nat.ltb_ge; lia). cbn [unwrap bind fst snd].
  rewrite IH by (rewrite skipn_length; lia). cbn [bind fst snd repeat].
  replace (2 * S n)%nat with (2 * n + 2)%nat by lia.
  assert (SS : forall k (l : bytes), skipn k (skipn 2 l) = skipn (k + 2) l).
  { intros k l. destruct l as [|a [|b l]]; [now rewrite !skipn_nil|now rewrite Nat.add_comm; cbn; rewrite skipn_nil|].
    rewrite Nat.add_comm. reflexivity. }
  unfold bytes in *. rewrite SS. reflexivity.
Qed.
Lemma random_limbs_panic n : forall src, (length src < 2 * n)%nat -> random_limbs n src = Panic.
Proof.
  induction n as [|n IH]; intros src L; [lia|].
  cbn [random_limbs]. unfold read_or_panic, read_full.
  destruct (Nat.ltb (length src) 2) eqn:E; [reflexivity|]. apply Nat.ltb_ge in E. cbn [unwrap bind fst snd].
  rewrite IH by (rewrite skipn_length; lia). reflexivity.
Qed.
Theorem randomField_ok src : (20 <= length src)%nat -> math_GetRandomFieldElement src = Ok (fe_const, skipn 20 src).
Proof. intros L. unfold math_GetRandomFieldElement. rewrite random_limbs_ok by exact L. reflexivity. Qed.
Theorem randomField_panic src : (length src < 20)%nat -> math_GetRandomFieldElement src = Panic.
Proof. intros L. unfold math_GetRandomFieldElement. rewrite random_limbs_panic by exact L. reflexivity. Qed.

Theorem randomEncodedField_ok src n : n = 32%nat \/ n = 64%nat -> (n <= length src)%nat ->
  math_GetRandomEncodedFieldElement src n = Ok (clear_top (firstn n src), skipn n src).
Proof.
  intros N L. unfold math_GetRandomEncodedFieldElement, math_GetRandomByteArray, read_or_panic, read_full.
  replace (Nat.ltb (length src) n) with false by (symmetry; apply Nat.ltb_ge; lia). cbn [unwrap bind fst snd].
  assert (E : nth_r (firstn n src) 31 = Ok (byte_at (firstn n src) 31)).
  { unfold nth_r, byte_at. destruct (nth_error (firstn n src) 31) eqn:E.
    - now rewrite (nth_error_nth _ _ _ E).
    - apply nth_error_None in E. rewrite firstn_length_le in E by lia. lia. }
  rewrite E. cbn [bind]. fold (clear_top (firstn n src)). destruct N as [-> | ->]; reflexivity.
Qed.
Theorem randomEncodedField_panic src n : (n <> 32%nat /\ n <> 64%nat) \/ (length src < n)%nat ->
  math_GetRandomEncodedFieldElement src n = Panic.
Proof.
  intros H. unfold math_GetRandomEncodedFieldElement, math_GetRandomByteArray, read_or_panic, read_full.
  destruct (Nat.ltb (length src) n) eqn:E; [reflexivity|]. apply Nat.ltb_ge in E. cbn [unwrap bind fst snd].
  destruct H as [[N1 N2]|H]; [|lia]. destruct (nth_r (firstn n src) 31) eqn:En; cbn [bind]; [|unfold nth_r in En; destruct (nth_error _ _); discriminate|reflexivity].
  apply Nat.eqb_neq in N1, N2. rewrite N1, N2. reflexivity.
Qed.

Lemma decode32_no_panic raw : wf_bytes raw -> length raw = 32%nat -> g_decode raw <> Panic.
Proof.
  intros W L. destruct (g_decode_ok raw W (or_introl L)) as [(P & g & _ & -> & _)|[_ ->]]; discriminate.
Qed.
Lemma random_tries_ok k : forall n src, (k < n)%nat -> wf_bytes src -> (32 * S k <= length src)%nat ->
  (forall j P, (j < k)%nat -> ~ denotes (block src j) P) -> forall P, denotes (block src k) P ->
  exists g, random_group_tries n src = Ok (g, skipn (32 * S k) src) /\ repc P3 g P.
Proof.
  induction k as [|k IH]; intros n src Hn W L Hj P D; (destruct n as [|n]; [lia|]); cbn [random_group_tries];
    unfold read_or_panic, read_full;
    (replace (Nat.ltb (length src) 32) with false by (symmetry; apply Nat.ltb_ge; lia)); cbn [unwrap bind fst snd].
  - change (block src 0) with (firstn 32 src) in D.
    destruct (g_decode_ok (firstn 32 src)) as [(Q & g & DQ & -> & R)|[N _]].
    + apply wf_firstn, W.
    + left. apply firstn_length_le. lia.
    + exists g. split; [reflexivity|]. rewrite <- (denotes_unique _ _ _ DQ D). exact R.
    + exfalso. apply (N P D).
  - destruct (g_decode_ok (firstn 32 src)) as [(Q & g & DQ & -> & R)|[N ->]].
    + apply wf_firstn, W.
    + left. apply firstn_length_le. lia.
    + exfalso. apply (Hj 0%nat Q); [lia|exact DQ].
    + assert (SS : forall j, skipn (32 * j) (skipn 32 src) = skipn (32 * S j) src).
      { intros j. rewrite <- (firstn_skipn 32 src) at 2. rewrite skipn_app, firstn_length_le by lia.
        rewrite (skipn_all2 (firstn 32 src)) by (rewrite firstn_length_le; lia). cbn [app]. f_equal. lia. }
      assert (BB : forall j, block (skipn 32 src) j = block src (S j)) by (intros j; unfold block; now rewrite SS).
      destruct (IH n (skipn 32 src)) with (P := P) as (g & E & R).
      * lia.
      * rewrite <- (firstn_skipn 32 src) in W. apply Forall_app in W. apply W.
      * rewrite skipn_length. lia.
      * intros j Q Lt. rewrite BB. apply Hj. lia.
      * rewrite BB. exact D.
      * exists g. rewrite E, SS. auto.
Qed.
Lemma tries_count : Z.to_nat 100000000 = Z.to_nat (10 ^ 8). Proof. f_equal. Qed.
Theorem randomGroup_ok src k P : Z.of_nat k < 10 ^ 8 -> wf_bytes src -> (32 * S k <= length src)%nat ->
  (forall j Q, (j < k)%nat -> ~ denotes (block src j) Q) -> denotes (block src k) P ->
  exists g, math_GetRandomGroupElement src = Ok (g, skipn (32 * S k) src) /\ repc P3 g P.
Proof.
  intros Hk W L Hj D. unfold math_GetRandomGroupElement. rewrite tries_count. generalize (10 ^ 8) Hk. intros m Hm.
  apply random_tries_ok; try assumption. lia.
Qed.
Theorem randomEncodedGroup_ok src k P : Z.of_nat k < 10 ^ 8 -> wf_bytes src -> (32 * S k <= length src)%nat ->
  (forall j Q, (j < k)%nat -> ~ denotes (block src j) Q) -> denotes (block src k) P ->
  math_GetRandomEncodedGroupElement src = Ok (enc_point P, skipn (32 * S k) src).
Proof.
  intros Hk W L Hj D. destruct (randomGroup_ok src k P Hk W L Hj D) as (g & E & R).
  unfold math_GetRandomEncodedGroupElement. rewrite E. cbn [bind fst snd].
  rewrite (g_encode_P3 g P R). reflexivity.
Qed.
