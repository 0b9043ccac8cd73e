(** The points of order dividing 8 and the byte strings that decode to them (specification level). *)
From Coq Require Import List ZArith Lia Bool Ring Field Znumtheory.
From Verif Require Import GoBase FieldModel FieldSpec ByteLemmas Primality Fp Curve BasePoint GroupModel GroupSpec
  PointCodec PropGroupLemmas VerifyProofs.
Import ListNotations.
Open Scope Z_scope.

(** y coordinate of a point of order 8 *)
Definition y8_z : Z := 2707385501144840649318225287225658788936804267575313519463743609750303402022.
Definition y8 : F := inF y8_z.
Definition c8 : F := (y8 * y8)%F.
Lemma c8_eq : (Fd * (c8 * c8) + inF 2 * c8 - F1 = 0)%F.
Proof. apply F_eq. unfold c8, y8. rewrite <- (inF_val Fd), Fd_val. vm_compute. reflexivity. Qed.
(** the other root of d c^2 + 2 c - 1 is not a square *)
Definition c8'_z : Z := 3685532557031388680362915159118232971324886473920755116993713661282644049091.
Lemma c8'_eq : (Fd * (c8 + inF c8'_z) = - inF 2)%F.
Proof. apply F_eq. unfold c8, y8. rewrite <- (inF_val Fd), Fd_val. vm_compute. reflexivity. Qed.
Lemma c8'_nz : inF c8'_z <> F0.
Proof. intros E. apply (f_equal val) in E. vm_compute in E. discriminate E. Qed.
Lemma c8'_pow : powp (val (inF c8'_z)) half_p = p25519 - 1.
Proof. vm_compute. reflexivity. Qed.
Lemma c8'_nonsquare : ~ is_square (inF c8'_z).
Proof.
  intros Hs. pose proof (square_euler _ Hs c8'_nz) as E. rewrite <- half_p_eq in E.
  apply (f_equal val) in E. rewrite <- powp_val, c8'_pow in E. vm_compute in E. discriminate E.
Qed.

Lemma quartic y : (Fd * (y * y * (y * y)) + inF 2 * (y * y) - F1 = 0)%F -> y = y8 \/ y = (- y8)%F.
Proof.
  intros Q. pose proof c8_eq as C. pose proof c8'_eq as C'.
  assert (E : (Fd * ((y * y - c8) * (y * y - inF c8'_z)) = 0)%F).
  { set (c := c8) in *. set (w := (y * y)%F) in *. set (c' := inF c8'_z) in *.
    assert (K : (Fd * c * c' = - F1)%F).
    { transitivity (c * (Fd * (c + c')) - Fd * (c * c))%F; [ring|]. rewrite C'.
      transitivity (- (Fd * (c * c) + inF 2 * c - F1) - F1)%F; [ring|]. rewrite C. ring. }
    transitivity (Fd * (w * w) - w * (Fd * (c + c')) + Fd * c * c')%F; [ring|]. rewrite C', K.
    transitivity (Fd * (w * w) + inF 2 * w - F1)%F; [ring|exact Q]. }
  apply F_mul_eq_0 in E; [|apply Fd_nz]. apply F_integral in E as [E|E].
  - apply F_sq_eq. apply F_sub_eq. exact E.
  - exfalso. apply c8'_nonsquare. exists y. apply F_sub_eq. exact E.
Qed.

(** the y coordinates of the eight points *)
Definition torsion_y (y : F) : Prop := y = F0 \/ y = F1 \/ y = (- F1)%F \/ y = y8 \/ y = (- y8)%F.

Lemma px0_y x y : on_curve x y -> x = F0 -> y = F1 \/ y = (- F1)%F.
Proof.
  intros C ->. unfold on_curve in C. apply F_sq_eq. transitivity (y * y - 0 * 0)%F; [ring|]. rewrite C. ring.
Qed.
Lemma y1_px0 x y : on_curve x y -> y = F1 \/ y = (- F1)%F -> x = F0.
Proof.
  intros C Y. unfold on_curve in C. assert (E : (y * y = F1)%F) by (destruct Y as [-> | ->]; ring).
  rewrite E in C.
  assert (Z : ((1 + Fd) * (x * x) = 0)%F).
  { transitivity (1 + Fd * (x * x) * F1 - (F1 - x * x))%F; [ring|]. rewrite <- C. ring. }
  apply F_mul_eq_0 in Z.
  - apply F_integral in Z as [Z|Z]; exact Z.
  - intros K. apply (f_equal val) in K. rewrite <- (inF_val Fd), Fd_val in K. vm_compute in K. discriminate K.
Qed.
Lemma div0 a b : b <> F0 -> (a / b = 0)%F -> a = F0.
Proof. intros N E. transitivity (a / b * b)%F; [field; exact N|]. rewrite E. ring. Qed.
Lemma double_px0 P : px (padd P P) = F0 -> px P = F0 \/ py P = F0.
Proof.
  intros E. destruct (padd_coords P P) as (N1 & _ & E1 & _). rewrite E1 in E. apply div0 in E; [|exact N1].
  assert (K : (inF 2 * (px P * py P) = 0)%F) by (rewrite <- E; ring).
  apply F_mul_eq_0 in K; [|apply F2_nz]. apply F_integral in K. exact K.
Qed.
Lemma double_py0 P : py (padd P P) = F0 <-> (py P * py P + px P * px P = 0)%F.
Proof.
  destruct (padd_coords P P) as (_ & N2 & _ & E2). rewrite E2. split.
  - intros E. apply div0 in E; [|exact N2]. exact E.
  - intros ->. field. exact N2.
Qed.
Lemma x0_order2 P : px P = F0 -> padd P P = pzero.
Proof.
  intros X. destruct (padd_coords P P) as (N1 & N2 & E1 & E2). rewrite X in *.
  destruct (px0_y _ _ (pon P) X) as [Y|Y]; rewrite Y in *; apply point_eq; cbn [pzero px py];
    (rewrite E1 || rewrite E2); field; fnz.
Qed.
Lemma order2_x0 P : padd P P = pzero -> px P = F0.
Proof.
  intros E. assert (K : P = pneg P).
  { apply (padd_cancel_l P). rewrite E. symmetry. apply padd_neg. }
  apply (f_equal px) in K. cbn [pneg px] in K. apply F_neg_self in K. exact K.
Qed.
Lemma zmul_4 P : zmul 4 P = padd (padd P P) (padd P P).
Proof. replace 4 with (2 * 2) by reflexivity. rewrite zmul_mul, !zmul_2. reflexivity. Qed.
Lemma zmul_8 P : zmul 8 P = padd (zmul 4 P) (zmul 4 P).
Proof. replace 8 with (2 * 4) by reflexivity. rewrite zmul_mul, zmul_2. reflexivity. Qed.
Theorem torsion8_iff P : zmul 8 P = pzero <-> torsion_y (py P).
Proof.
  split.
  - intros E. rewrite zmul_8 in E. apply order2_x0 in E. rewrite zmul_4 in E. apply double_px0 in E as [E|E].
    + apply double_px0 in E as [E|E].
      * destruct (px0_y _ _ (pon P) E) as [Y|Y]; unfold torsion_y; auto.
      * left. exact E.
    + apply double_py0 in E. right. right. right. apply quartic. pose proof (pon P) as C. unfold on_curve in C.
      assert (X : (px P * px P = - (py P * py P))%F).
      { transitivity (py P * py P + px P * px P - py P * py P)%F; [ring|]. rewrite E. ring. }
      rewrite X in C. transitivity (py P * py P - - (py P * py P) - (1 + Fd * - (py P * py P) * (py P * py P)))%F; [ring|].
      rewrite C. ring.
  - intros T. rewrite zmul_8. apply x0_order2. rewrite zmul_4. destruct T as [Y|[Y|[Y|Y]]].
    + rewrite <- zmul_4, (y0_order4 P Y). reflexivity.
    + assert (X : px P = F0) by (apply (y1_px0 _ _ (pon P)); left; exact Y).
      rewrite (x0_order2 P X), padd_0_r. reflexivity.
    + assert (X : px P = F0) by (apply (y1_px0 _ _ (pon P)); right; exact Y).
      rewrite (x0_order2 P X), padd_0_r. reflexivity.
    + assert (W : (py P * py P = c8)%F) by (destruct Y as [-> | ->]; unfold c8; ring).
      assert (Y0 : py (padd P P) = F0).
      { apply double_py0. pose proof (pon P) as C. apply curve_uv in C. rewrite W in *. pose proof c8_eq as Q.
        apply (F_mul_cancel _ _ (c8 * Fd + 1)%F).
        - pose proof (den_v (py P)) as D. rewrite W in D. intros K. apply D. rewrite <- K. ring.
        - transitivity (c8 * (c8 * Fd + 1) + (c8 * Fd + 1) * (px P * px P))%F; [ring|]. rewrite C.
          transitivity (Fd * (c8 * c8) + inF 2 * c8 - F1)%F; [|rewrite Q; ring].
          replace (inF 2) with (1 + 1)%F by (apply F_eq; reflexivity). ring. }
      destruct (padd_coords (padd P P) (padd P P)) as (N1 & N2 & E1 & E2). rewrite E1, Y0 in *. field. fnz.
Qed.

(** ** byte strings *)
(** the low 255 bits of a key that decodes to a point of order dividing 8 *)
Definition small_order_y (v : Z) : Prop :=
  v = 0 \/ v = 1 \/ v = p25519 - 1 \/ v = p25519 \/ v = p25519 + 1 \/ v = y8_z \/ v = p25519 - y8_z.
Lemma mod_cases v w : 0 <= v < 2 ^ 255 -> 0 <= w < p25519 -> (inF v = inF w <-> v = w \/ v = w + p25519).
Proof.
  intros V W. split.
  - intros E. apply (f_equal val) in E. rewrite !val_inF in E. rewrite (Z.mod_small w) in E by exact W.
    destruct (Z.lt_ge_cases v p25519) as [L|L].
    + rewrite Z.mod_small in E by lia. auto.
    + right. assert (2 ^ 255 = p25519 + 19) by reflexivity. assert (1000 < p25519) by reflexivity.
      replace v with (v - p25519 + 1 * p25519) in E by ring. rewrite Z.mod_add in E by discriminate.
      rewrite Z.mod_small in E by lia. lia.
  - intros [-> | ->]; [reflexivity|]. apply F_eq. rewrite !val_inF.
    replace (w + p25519) with (w + 1 * p25519) by ring. now rewrite Z.mod_add by discriminate.
Qed.
Lemma torsion_val v : 0 <= v < 2 ^ 255 -> (torsion_y (inF v) <-> small_order_y v).
Proof.
  intros V. unfold torsion_y, small_order_y.
  assert (B : 2 ^ 255 = p25519 + 19) by reflexivity. assert (P1 : 2 < p25519) by reflexivity.
  assert (Y8 : 19 < y8_z < p25519 - 19) by (split; reflexivity).
  assert (M1 : (- F1)%F = inF (p25519 - 1)) by (apply F_eq; vm_compute; reflexivity).
  assert (M8 : (- y8)%F = inF (p25519 - y8_z)) by (apply F_eq; vm_compute; reflexivity).
  rewrite M1, M8. unfold y8. change F0 with (inF 0). change F1 with (inF 1).
  rewrite (mod_cases v 0), (mod_cases v 1), (mod_cases v (p25519 - 1)), (mod_cases v y8_z), (mod_cases v (p25519 - y8_z)) by lia.
  lia.
Qed.
(** every such y is the y coordinate of a point *)
Lemma on_0 : on_curve Fi F0.
Proof. unfold on_curve. rewrite Fi_sq. ring. Qed.
Lemma on_m1 : on_curve F0 (- F1)%F.
Proof. unfold on_curve. ring. Qed.
Lemma on_8 : on_curve (Fi * y8)%F y8.
Proof.
  unfold on_curve. pose proof c8_eq as Q. fold c8.
  replace (Fi * y8 * (Fi * y8))%F with (- c8)%F by (transitivity (Fi * Fi * c8)%F; [rewrite Fi_sq; ring|unfold c8; ring]).
  apply F_sub_eq. transitivity (Fd * (c8 * c8) + inF 2 * c8 - F1)%F; [|exact Q].
  replace (inF 2) with (1 + 1)%F by (apply F_eq; reflexivity). ring.
Qed.
Lemma on_m8 : on_curve (Fi * y8)%F (- y8)%F.
Proof. pose proof on_8 as C. unfold on_curve in *. replace (- y8 * - y8)%F with (y8 * y8)%F by ring. exact C. Qed.
Lemma torsion_y_point y : torsion_y y -> exists x, on_curve x y.
Proof.
  intros [-> |[-> |[-> |[-> | ->]]]]; eexists; [exact on_0|exact zero_on|exact on_m1|exact on_8|exact on_m8].
Qed.
Lemma denotes_exists raw x : on_curve x (y255 raw) -> exists P, denotes raw P.
Proof.
  intros C. destruct (fix_sign x (sign255 raw)) as [A|[A _]].
  - exists (mkpt x (y255 raw) C). split; [reflexivity|exact A].
  - exists (mkpt _ (y255 raw) (neg_on _ _ C)). split; [reflexivity|left; exact A].
Qed.
Theorem small_order_iff raw : wf_bytes raw -> length raw = 32%nat ->
  ((exists P, denotes raw P /\ zmul 8 P = pzero) <-> small_order_y (le_val raw mod 2 ^ 255)).
Proof.
  intros W L. assert (V : 0 <= le_val raw mod 2 ^ 255 < 2 ^ 255) by (apply Z.mod_pos_bound; reflexivity).
  assert (Y : y255 raw = inF (le_val raw mod 2 ^ 255)) by (unfold y255; rewrite firstn_all2 by lia; reflexivity).
  rewrite <- (torsion_val _ V), <- Y. split.
  - intros (P & [D _] & E). apply torsion8_iff in E. rewrite <- D. exact E.
  - intros T. destruct (torsion_y_point _ T) as (x & C). destruct (denotes_exists raw x C) as (P & D).
    exists P. split; [exact D|]. apply torsion8_iff. rewrite (proj1 D). exact T.
Qed.
