(** The twisted Edwards curve -x^2 + y^2 = 1 + d x^2 y^2 over F_p, its group law, and the proof
    that it is an abelian group (specification level: nothing here mentions the Go code). *)
From Coq Require Import ZArith Lia Bool Znumtheory Eqdep_dec Ring Field.
From Verif Require Import GoBase FieldSpec Primality Fp.
Open Scope Z_scope.

(** ** constants *)
Definition Fd : F := (- inF 121665 / inF 121666)%F.
(** a square root of -1 *)
Definition Fi : F := inF 19681161376707505956807079304988542015446066515923890162744021073123829784752.

Lemma Fi_sq : (Fi * Fi = - F1)%F.
Proof. apply F_eq. vm_compute. reflexivity. Qed.

Lemma F121666_nz : inF 121666 <> F0.
Proof. intros H. apply (f_equal val) in H. vm_compute in H; discriminate H. Qed.
Lemma Fd_eq : (Fd * inF 121666 = - inF 121665)%F.
Proof. unfold Fd. field. exact F121666_nz. Qed.
Lemma Fd_nz : Fd <> F0.
Proof.
  intros H. pose proof Fd_eq as E. rewrite H in E.
  apply (f_equal val) in E. vm_compute in E; discriminate E.
Qed.

Definition is_square (a : F) : Prop := exists s, (s * s = a)%F.

Lemma Fpow_sq s n : 0 <= n -> Fpow (s * s)%F n = Fpow s (2 * n).
Proof.
  intros H. rewrite Fpow_mul_base by exact H. rewrite <- Fpow_add by exact H. f_equal. lia.
Qed.
Lemma square_euler a : is_square a -> a <> F0 -> Fpow a ((p25519 - 1) / 2) = F1.
Proof.
  intros [s <-] N. rewrite Fpow_sq by (vm_compute; discriminate).
  replace (2 * ((p25519 - 1) / 2)) with (p25519 - 1) by (vm_compute; reflexivity). apply F_fermat.
  intros ->. apply N. ring.
Qed.

(** exponentiation with the fast reduction *)
Fixpoint powp (a : Z) (n : positive) : Z :=
  match n with
  | xH => a
  | xO k => let r := powp a k in mulp r r
  | xI k => let r := powp a k in mulp (mulp r r) a
  end.
Lemma mulp_val a b : mulp (val a) (val b) = val (a * b)%F.
Proof. rewrite <- (inF_val a), <- (inF_val b) at 2. rewrite mulp_ok. now rewrite !inF_val. Qed.
Lemma powp_val a n : powp (val a) n = val (Fpow a (Zpos n)).
Proof.
  induction n as [n IH|n IH|]; cbn [powp].
  - rewrite IH, !mulp_val. f_equal.
    replace (Z.pos n~1) with (Z.pos n + Z.pos n + 1) by lia.
    rewrite !Fpow_add, Fpow_1 by lia. reflexivity.
  - rewrite IH, !mulp_val. f_equal.
    replace (Z.pos n~0) with (Z.pos n + Z.pos n) by lia.
    rewrite !Fpow_add by lia. reflexivity.
  - now rewrite Fpow_1.
Qed.

Definition half_p : positive := Z.to_pos ((p25519 - 1) / 2).
Lemma half_p_eq : Zpos half_p = (p25519 - 1) / 2.
Proof. vm_compute. reflexivity. Qed.
Global Opaque half_p.
Definition dn : F := inF (121665 * 121666).
Lemma dn_pow : powp (val dn) half_p = p25519 - 1.
Proof. vm_compute. reflexivity. Qed.
Theorem Fd_nonsquare : ~ is_square Fd.
Proof.
  intros [s Hs].
  assert (S : is_square dn).
  { exists (Fi * (s * inF 121666))%F.
    transitivity ((Fi * Fi) * ((s * s) * inF 121666 * inF 121666))%F; [ring|].
    rewrite Hs, Fd_eq, Fi_sq. unfold dn. rewrite inF_mul. ring. }
  apply square_euler in S; [|intros E; apply (f_equal val) in E; vm_compute in E; discriminate E].
  pose proof (powp_val dn half_p) as P. rewrite dn_pow, half_p_eq, S in P.
  vm_compute in P. discriminate P.
Qed.
Lemma Fmd_nonsquare : ~ is_square (- Fd)%F.
Proof.
  intros [s Hs]. apply Fd_nonsquare. exists (Fi * s)%F.
  transitivity ((Fi * Fi) * (s * s))%F; [ring|]. rewrite Hs, Fi_sq. ring.
Qed.

Global Opaque Fd Fi.

(** ** points *)
Definition on_curve (x y : F) : Prop := (y * y - x * x = 1 + Fd * (x * x) * (y * y))%F.

Lemma complete_lemma u1 y1 u2 y2 c e :
  ~ is_square c -> c <> F0 -> (e * e = 1)%F ->
  (u1 * u1 + y1 * y1 = 1 + c * (u1 * u1) * (y1 * y1))%F ->
  (u2 * u2 + y2 * y2 = 1 + c * (u2 * u2) * (y2 * y2))%F ->
  (c * u1 * u2 * y1 * y2 = e)%F -> False.
Proof.
  intros NS Nc He C1 C2 E.
  assert (Ne : e <> F0) by (intros ->; apply F1_neq_F0; rewrite <- He; ring).
  assert (N1 : (u1 * y1)%F <> F0).
  { intros Z. apply Ne. rewrite <- E. transitivity (c * u2 * y2 * (u1 * y1))%F; [ring|]. rewrite Z. ring. }
  assert (N2 : u2 <> F0).
  { intros Z. apply Ne. rewrite <- E, Z. ring. }
  assert (K : (c * (u1 * y1) * (u1 * y1) * (u2 * u2 + y2 * y2) = u1 * u1 + y1 * y1)%F).
  { rewrite C2. transitivity (c * (u1 * u1) * (y1 * y1) + (c * u1 * u2 * y1 * y2) * (c * u1 * u2 * y1 * y2))%F; [ring|].
    rewrite E, He, C1. ring. }
  assert (Q : forall s, (s * s = 1)%F -> (u2 + s * y2)%F <> F0 -> False).
  { intros s Hs Nz. apply NS. exists ((u1 + s * (e * y1)) / ((u1 * y1) * (u2 + s * y2)))%F.
    assert (M : ((u1 + s * (e * y1)) * (u1 + s * (e * y1))
                 = c * ((u1 * y1) * (u2 + s * y2)) * ((u1 * y1) * (u2 + s * y2)))%F).
    { transitivity (u1 * u1 + (s * s) * (e * e) * (y1 * y1) + inF 2 * s * (u1 * y1) * e)%F; [ring|].
      rewrite Hs, He. rewrite <- E at 1.
      transitivity ((u1 * u1 + y1 * y1) + inF 2 * s * c * (u1 * y1) * (u1 * y1) * (u2 * y2))%F; [ring|].
      rewrite <- K.
      transitivity (c * (u1 * y1) * (u1 * y1) * (u2 * u2 + (s * s) * (y2 * y2) + inF 2 * s * u2 * y2))%F;
        [rewrite Hs; ring|ring]. }
    transitivity (((u1 + s * (e * y1)) * (u1 + s * (e * y1)))
       / (((u1 * y1) * (u2 + s * y2)) * ((u1 * y1) * (u2 + s * y2))))%F.
    - field. split; [exact Nz|]. split; intros Z; apply N1; rewrite Z; ring.
    - rewrite M. field. split; [exact Nz|]. split; intros Z; apply N1; rewrite Z; ring. }
  destruct (F_eq_dec (u2 + 1 * y2)%F F0) as [E1|E1]; [|apply (Q F1); [ring|exact E1]].
  destruct (F_eq_dec (u2 + (- F1) * y2)%F F0) as [E2|E2]; [|apply (Q (- F1)%F); [ring|exact E2]].
  apply N2. assert (H : (inF 2 * u2 = 0)%F).
  { transitivity ((u2 + 1 * y2) + (u2 + (- F1) * y2))%F; [ring|]. rewrite E1, E2. ring. }
  apply (F_mul_eq_0 _ _ H F2_nz).
Qed.

Lemma complete_e x1 y1 x2 y2 e : on_curve x1 y1 -> on_curve x2 y2 -> (e * e = 1)%F ->
  (Fd * x1 * x2 * y1 * y2)%F <> e.
Proof.
  unfold on_curve. intros C1 C2 He E.
  apply (complete_lemma (Fi * x1)%F y1 (Fi * x2)%F y2 (- Fd)%F e); try assumption.
  - exact Fmd_nonsquare.
  - intros Z. apply Fd_nz. transitivity (- - Fd)%F; [ring|]. rewrite Z. ring.
  - transitivity (y1 * y1 + (Fi * Fi) * (x1 * x1))%F; [ring|]. rewrite Fi_sq.
    transitivity (y1 * y1 - x1 * x1)%F; [ring|]. rewrite C1.
    transitivity (1 + - Fd * ((Fi * Fi) * (x1 * x1)) * (y1 * y1))%F; [rewrite Fi_sq; ring|ring].
  - transitivity (y2 * y2 + (Fi * Fi) * (x2 * x2))%F; [ring|]. rewrite Fi_sq.
    transitivity (y2 * y2 - x2 * x2)%F; [ring|]. rewrite C2.
    transitivity (1 + - Fd * ((Fi * Fi) * (x2 * x2)) * (y2 * y2))%F; [rewrite Fi_sq; ring|ring].
  - transitivity (- (Fi * Fi) * (Fd * x1 * x2 * y1 * y2))%F; [ring|]. rewrite Fi_sq, E. ring.
Qed.
(** the denominators of the addition law never vanish *)
Lemma complete_p x1 y1 x2 y2 : on_curve x1 y1 -> on_curve x2 y2 ->
  (1 + Fd * x1 * x2 * y1 * y2)%F <> F0.
Proof.
  intros C1 C2 Z. apply (complete_e x1 y1 x2 y2 (- F1)%F C1 C2); [ring|].
  transitivity ((1 + Fd * x1 * x2 * y1 * y2) - 1)%F; [ring|]. rewrite Z. ring.
Qed.
Lemma complete_m x1 y1 x2 y2 : on_curve x1 y1 -> on_curve x2 y2 ->
  (1 - Fd * x1 * x2 * y1 * y2)%F <> F0.
Proof.
  intros C1 C2 Z. apply (complete_e x1 y1 x2 y2 1%F C1 C2); [ring|].
  transitivity (1 - (1 - Fd * x1 * x2 * y1 * y2))%F; [ring|]. rewrite Z. ring.
Qed.

Record point : Set := mkpt { px : F; py : F; pon : on_curve px py }.
Lemma point_eq P Q : px P = px Q -> py P = py Q -> P = Q.
Proof.
  destruct P as [x y H], Q as [x' y' H']. cbn [px py]. intros <- <-. f_equal.
  apply UIP_dec, F_eq_dec.
Qed.
Lemma point_eq_dec (P Q : point) : {P = Q} + {P <> Q}.
Proof.
  destruct (F_eq_dec (px P) (px Q)) as [E|N]; [|right; congruence].
  destruct (F_eq_dec (py P) (py Q)) as [E'|N]; [|right; congruence].
  left. apply point_eq; assumption.
Qed.

(** The proofs use e = 1/d: the curve is x^2 y^2 = e (y^2 - x^2 - 1), and dividing by d never
    occurs in the polynomial identities, which [ring] checks by rewriting with that equation. *)
Definition Fe_ : F := Finv Fd.
Lemma Fe_nz : Fe_ <> F0. Proof. apply Finv_nz, Fd_nz. Qed.
Lemma Fd_inv : Fd = (1 / Fe_)%F.
Proof. unfold Fe_. field. fnz; exact Fd_nz. Qed.
Lemma Fd_e : (Fd * Fe_ = 1)%F.
Proof. unfold Fe_. field. fnz; exact Fd_nz. Qed.
Lemma on_curve_e x y : on_curve x y <-> (x * x * (y * y) = Fe_ * (y * y - x * x - 1))%F.
Proof.
  unfold on_curve. split; intros H.
  - rewrite H. transitivity (Fd * Fe_ * (x * x * (y * y)))%F; [rewrite Fd_e; ring|ring].
  - assert (E : (Fd * (x * x * (y * y)) = Fd * Fe_ * (y * y - x * x - 1))%F) by (rewrite H; ring).
    rewrite Fd_e in E. transitivity (1 + Fd * (x * x * (y * y)))%F; [rewrite E; ring|ring].
Qed.
Lemma den_p x1 y1 x2 y2 : (Fe_ + x1 * x2 * y1 * y2 = Fe_ * (1 + Fd * x1 * x2 * y1 * y2))%F.
Proof. transitivity (Fe_ + (Fd * Fe_) * (x1 * x2 * y1 * y2))%F; [rewrite Fd_e; ring|ring]. Qed.
Lemma den_m x1 y1 x2 y2 : (Fe_ - x1 * x2 * y1 * y2 = Fe_ * (1 - Fd * x1 * x2 * y1 * y2))%F.
Proof. transitivity (Fe_ - (Fd * Fe_) * (x1 * x2 * y1 * y2))%F; [rewrite Fd_e; ring|ring]. Qed.
Lemma complete_pe x1 y1 x2 y2 : on_curve x1 y1 -> on_curve x2 y2 ->
  (Fe_ + x1 * x2 * y1 * y2)%F <> F0.
Proof. intros. rewrite den_p. apply F_mul_nz; [exact Fe_nz|apply complete_p; assumption]. Qed.
Lemma complete_me x1 y1 x2 y2 : on_curve x1 y1 -> on_curve x2 y2 ->
  (Fe_ - x1 * x2 * y1 * y2)%F <> F0.
Proof. intros. rewrite den_m. apply F_mul_nz; [exact Fe_nz|apply complete_m; assumption]. Qed.

(** ** the addition law *)
Definition add_x (x1 y1 x2 y2 : F) : F := ((x1 * y2 + x2 * y1) / (1 + Fd * x1 * x2 * y1 * y2))%F.
Definition add_y (x1 y1 x2 y2 : F) : F := ((y1 * y2 + x1 * x2) / (1 - Fd * x1 * x2 * y1 * y2))%F.
Lemma add_x_e x1 y1 x2 y2 : on_curve x1 y1 -> on_curve x2 y2 ->
  add_x x1 y1 x2 y2 = (Fe_ * (x1 * y2 + x2 * y1) / (Fe_ + x1 * x2 * y1 * y2))%F.
Proof.
  intros C1 C2. rewrite den_p. unfold add_x. field.
  split; [apply complete_p; assumption|exact Fe_nz].
Qed.
Lemma add_y_e x1 y1 x2 y2 : on_curve x1 y1 -> on_curve x2 y2 ->
  add_y x1 y1 x2 y2 = (Fe_ * (y1 * y2 + x1 * x2) / (Fe_ - x1 * x2 * y1 * y2))%F.
Proof.
  intros C1 C2. rewrite den_m. unfold add_y. field.
  split; [apply complete_m; assumption|exact Fe_nz].
Qed.

Lemma add_on_id e x1 y1 x2 y2 :
  (x1 * x1 * (y1 * y1) = e * (y1 * y1 - x1 * x1 - 1))%F ->
  (x2 * x2 * (y2 * y2) = e * (y2 * y2 - x2 * x2 - 1))%F ->
  (e * e * e * ((x1 * y2 + x2 * y1) * (x1 * y2 + x2 * y1)) * ((y1 * y2 + x1 * x2) * (y1 * y2 + x1 * x2))
   = (e * e * ((y1 * y2 + x1 * x2) * (y1 * y2 + x1 * x2))
        * ((e + x1 * x2 * y1 * y2) * (e + x1 * x2 * y1 * y2))
      - e * e * ((x1 * y2 + x2 * y1) * (x1 * y2 + x2 * y1))
        * ((e - x1 * x2 * y1 * y2) * (e - x1 * x2 * y1 * y2))
      - ((e + x1 * x2 * y1 * y2) * (e + x1 * x2 * y1 * y2))
        * ((e - x1 * x2 * y1 * y2) * (e - x1 * x2 * y1 * y2))))%F.
Proof. intros H1 H2. ring [H1 H2]. Qed.

Lemma add_on x1 y1 x2 y2 : on_curve x1 y1 -> on_curve x2 y2 ->
  on_curve (add_x x1 y1 x2 y2) (add_y x1 y1 x2 y2).
Proof.
  intros C1 C2. rewrite add_x_e, add_y_e by assumption. apply on_curve_e.
  pose proof (complete_pe _ _ _ _ C1 C2) as Np. pose proof (complete_me _ _ _ _ C1 C2) as Nm.
  apply on_curve_e in C1, C2. pose proof (add_on_id _ _ _ _ _ C1 C2) as I.
  generalize dependent Fe_. intros e C1 C2 Np Nm I. clear C1 C2.
  set (P := (e + x1 * x2 * y1 * y2)%F) in *. set (M := (e - x1 * x2 * y1 * y2)%F) in *.
  set (X := (x1 * y2 + x2 * y1)%F) in *. set (Y := (y1 * y2 + x1 * x2)%F) in *.
  clearbody P M X Y. apply F_sub_eq.
  transitivity ((e * (e * e * e * (X * X) * (Y * Y) - (e * e * (Y * Y) * (P * P) - e * e * (X * X) * (M * M) - P * P * (M * M))))
                / (P * P * (M * M)))%F; [field; split; assumption|].
  rewrite I. field. split; assumption.
Qed.

Definition padd (P Q : point) : point :=
  mkpt _ _ (add_on _ _ _ _ (pon P) (pon Q)).
Lemma zero_on : on_curve F0 F1.
Proof. unfold on_curve. ring. Qed.
Definition pzero : point := mkpt F0 F1 zero_on.
Lemma neg_on x y : on_curve x y -> on_curve (- x)%F y.
Proof. unfold on_curve. intros H. transitivity (y * y - x * x)%F; [ring|]. rewrite H. ring. Qed.
Definition pneg (P : point) : point := mkpt _ _ (neg_on _ _ (pon P)).

Theorem padd_comm P Q : padd P Q = padd Q P.
Proof.
  destruct P as [x1 y1 C1], Q as [x2 y2 C2]. apply point_eq; cbn [padd px py]; unfold add_x, add_y.
  - f_equal; ring. - f_equal; ring.
Qed.
Theorem padd_0_r P : padd P pzero = P.
Proof.
  destruct P as [x1 y1 C1]. apply point_eq; cbn [padd px py pzero]; unfold add_x, add_y.
  - transitivity (x1 / 1)%F; [f_equal; ring|]. field. exact F1_neq_F0.
  - transitivity (y1 / 1)%F; [f_equal; ring|]. field. exact F1_neq_F0.
Qed.
Theorem padd_neg P : padd P (pneg P) = pzero.
Proof.
  destruct P as [x1 y1 C1]. pose proof (complete_m _ _ _ _ C1 (neg_on _ _ C1)) as N.
  apply point_eq; cbn [padd px py pzero pneg]; unfold add_x, add_y.
  - transitivity (0 / (1 + Fd * x1 * - x1 * y1 * y1))%F; [f_equal; ring|].
    field. apply (complete_p _ _ _ _ C1 (neg_on _ _ C1)).
  - transitivity ((1 - Fd * x1 * - x1 * y1 * y1) / (1 - Fd * x1 * - x1 * y1 * y1))%F.
    + f_equal. unfold on_curve in C1. transitivity (y1 * y1 - x1 * x1)%F; [ring|]. rewrite C1. ring.
    + field. exact N.
Qed.

Lemma assoc_id_x e x1 y1 x2 y2 x3 y3 :
  (x1 * x1 * (y1 * y1) = e * (y1 * y1 - x1 * x1 - 1))%F ->
  (x2 * x2 * (y2 * y2) = e * (y2 * y2 - x2 * x2 - 1))%F ->
  (x3 * x3 * (y3 * y3) = e * (y3 * y3 - x3 * x3 - 1))%F ->
  (((x1 * y2 + x2 * y1) * y3 * (e - x1 * x2 * y1 * y2) + x3 * (y1 * y2 + x1 * x2) * (e + x1 * x2 * y1 * y2))
   * ((e + x2 * x3 * y2 * y3) * (e - x2 * x3 * y2 * y3) + e * x1 * y1 * (x2 * y3 + x3 * y2) * (y2 * y3 + x2 * x3))
   = ((x2 * y3 + x3 * y2) * y1 * (e - x2 * x3 * y2 * y3) + x1 * (y2 * y3 + x2 * x3) * (e + x2 * x3 * y2 * y3))
   * ((e + x1 * x2 * y1 * y2) * (e - x1 * x2 * y1 * y2) + e * x3 * y3 * (x1 * y2 + x2 * y1) * (y1 * y2 + x1 * x2)))%F.
Proof. intros H1 H2 H3. ring [H1 H2 H3]. Qed.
Lemma assoc_id_y e x1 y1 x2 y2 x3 y3 :
  (x1 * x1 * (y1 * y1) = e * (y1 * y1 - x1 * x1 - 1))%F ->
  (x2 * x2 * (y2 * y2) = e * (y2 * y2 - x2 * x2 - 1))%F ->
  (x3 * x3 * (y3 * y3) = e * (y3 * y3 - x3 * x3 - 1))%F ->
  (((y1 * y2 + x1 * x2) * y3 * (e + x1 * x2 * y1 * y2) + x3 * (x1 * y2 + x2 * y1) * (e - x1 * x2 * y1 * y2))
   * ((e + x2 * x3 * y2 * y3) * (e - x2 * x3 * y2 * y3) - e * x1 * y1 * (x2 * y3 + x3 * y2) * (y2 * y3 + x2 * x3))
   = ((y2 * y3 + x2 * x3) * y1 * (e + x2 * x3 * y2 * y3) + x1 * (x2 * y3 + x3 * y2) * (e - x2 * x3 * y2 * y3))
   * ((e + x1 * x2 * y1 * y2) * (e - x1 * x2 * y1 * y2) - e * x3 * y3 * (x1 * y2 + x2 * y1) * (y1 * y2 + x1 * x2)))%F.
Proof. intros H1 H2 H3. ring [H1 H2 H3]. Qed.

(** fraction forms of a three-point sum *)
Lemma F_frac_eq a b c d : b <> F0 -> d <> F0 -> (a * d = c * b)%F -> (a / b = c / d)%F.
Proof.
  intros Hb Hd H. apply F_sub_eq. transitivity ((a * d - c * b) / (b * d))%F; [field; fnz|].
  rewrite H. field. fnz.
Qed.

Section Sum3.
Variables (e X Y P M x3 y3 : F).
Hypothesis He : e <> F0.
Hypothesis HP : P <> F0.
Hypothesis HM : M <> F0.
Let x12 := (e * X / P)%F.
Let y12 := (e * Y / M)%F.
Lemma sum3_dp : (e + x12 * x3 * y12 * y3 = e * (P * M + e * x3 * y3 * X * Y) / (P * M))%F.
Proof. unfold x12, y12. field. fnz. Qed.
Lemma sum3_dm : (e - x12 * x3 * y12 * y3 = e * (P * M - e * x3 * y3 * X * Y) / (P * M))%F.
Proof. unfold x12, y12. field. fnz. Qed.
Lemma sum3_x : (e + x12 * x3 * y12 * y3)%F <> F0 ->
  (P * M + e * x3 * y3 * X * Y)%F <> F0 /\
  (e * (x12 * y3 + x3 * y12) / (e + x12 * x3 * y12 * y3)
   = e * (X * y3 * M + x3 * Y * P) / (P * M + e * x3 * y3 * X * Y))%F.
Proof.
  rewrite sum3_dp. intros N.
  assert (N' : (P * M + e * x3 * y3 * X * Y)%F <> F0).
  { intros Z. apply N. rewrite Z. field. fnz. }
  split; [exact N'|]. unfold x12, y12. field. fnz.
Qed.
Lemma sum3_y : (e - x12 * x3 * y12 * y3)%F <> F0 ->
  (P * M - e * x3 * y3 * X * Y)%F <> F0 /\
  (e * (y12 * y3 + x12 * x3) / (e - x12 * x3 * y12 * y3)
   = e * (Y * y3 * P + x3 * X * M) / (P * M - e * x3 * y3 * X * Y))%F.
Proof.
  rewrite sum3_dm. intros N.
  assert (N' : (P * M - e * x3 * y3 * X * Y)%F <> F0).
  { intros Z. apply N. rewrite Z. field. fnz. }
  split; [exact N'|]. unfold x12, y12. field. fnz.
Qed.
End Sum3.

Lemma sum3 x1 y1 x2 y2 x3 y3 : on_curve x1 y1 -> on_curve x2 y2 -> on_curve x3 y3 ->
  let X := (x1 * y2 + x2 * y1)%F in let Y := (y1 * y2 + x1 * x2)%F in
  let P := (Fe_ + x1 * x2 * y1 * y2)%F in let M := (Fe_ - x1 * x2 * y1 * y2)%F in
  (P * M + Fe_ * x3 * y3 * X * Y)%F <> F0 /\ (P * M - Fe_ * x3 * y3 * X * Y)%F <> F0 /\
  add_x (add_x x1 y1 x2 y2) (add_y x1 y1 x2 y2) x3 y3
    = (Fe_ * (X * y3 * M + x3 * Y * P) / (P * M + Fe_ * x3 * y3 * X * Y))%F /\
  add_y (add_x x1 y1 x2 y2) (add_y x1 y1 x2 y2) x3 y3
    = (Fe_ * (Y * y3 * P + x3 * X * M) / (P * M - Fe_ * x3 * y3 * X * Y))%F.
Proof.
  intros C1 C2 C3. cbv zeta. pose proof (add_on _ _ _ _ C1 C2) as C12.
  rewrite (add_x_e _ _ x3 y3 C12 C3), (add_y_e _ _ x3 y3 C12 C3).
  pose proof (complete_pe _ _ _ _ C12 C3) as Np. pose proof (complete_me _ _ _ _ C12 C3) as Nm.
  pose proof (complete_pe _ _ _ _ C1 C2) as HP. pose proof (complete_me _ _ _ _ C1 C2) as HM.
  clear C12.
  rewrite (add_x_e _ _ _ _ C1 C2), (add_y_e _ _ _ _ C1 C2) in *.
  destruct (sum3_x _ _ _ _ _ x3 y3 Fe_nz HP HM Np) as [A1 A2].
  destruct (sum3_y _ _ _ _ _ x3 y3 Fe_nz HP HM Nm) as [B1 B2].
  repeat split; assumption.
Qed.

Theorem padd_assoc P Q R : padd (padd P Q) R = padd P (padd Q R).
Proof.
  rewrite (padd_comm P (padd Q R)).
  destruct P as [x1 y1 C1], Q as [x2 y2 C2], R as [x3 y3 C3].
  destruct (sum3 _ _ _ _ _ _ C1 C2 C3) as (L1 & L2 & L3 & L4).
  destruct (sum3 _ _ _ _ _ _ C2 C3 C1) as (R1 & R2 & R3 & R4).
  apply on_curve_e in C1 as D1. apply on_curve_e in C2 as D2. apply on_curve_e in C3 as D3.
  apply point_eq; cbn [padd px py]; cbv zeta in *.
  - rewrite L3, R3. apply F_frac_eq; [exact L1|exact R1|].
    pose proof (assoc_id_x _ _ _ _ _ _ _ D1 D2 D3) as I.
    match type of I with (?a * ?b = ?c * ?d)%F => transitivity (Fe_ * (a * b))%F; [ring|rewrite I; ring] end.
  - rewrite L4, R4. apply F_frac_eq; [exact L2|exact R2|].
    pose proof (assoc_id_y _ _ _ _ _ _ _ D1 D2 D3) as I.
    match type of I with (?a * ?b = ?c * ?d)%F => transitivity (Fe_ * (a * b))%F; [ring|rewrite I; ring] end.
Qed.

(** ** scalar multiples *)
Definition zmul (n : Z) (P : point) : point :=
  match n with
  | Z0 => pzero
  | Zpos k => Pos.iter (padd P) pzero k
  | Zneg k => pneg (Pos.iter (padd P) pzero k)
  end.
Definition psub (P Q : point) : point := padd P (pneg Q).

Lemma padd_0_l P : padd pzero P = P.
Proof. rewrite padd_comm. apply padd_0_r. Qed.
Lemma padd_neg_l P : padd (pneg P) P = pzero.
Proof. rewrite padd_comm. apply padd_neg. Qed.
Lemma padd_cancel_l P Q R : padd P Q = padd P R -> Q = R.
Proof.
  intros H. rewrite <- (padd_0_l Q), <- (padd_0_l R), <- (padd_neg_l P), !padd_assoc, H. reflexivity.
Qed.
Lemma padd_cancel_r P Q R : padd Q P = padd R P -> Q = R.
Proof. rewrite !(padd_comm _ P). apply padd_cancel_l. Qed.
Lemma pneg_unique P Q : padd P Q = pzero -> Q = pneg P.
Proof. intros H. apply (padd_cancel_l P). now rewrite H, padd_neg. Qed.
Lemma pneg_0 : pneg pzero = pzero.
Proof. symmetry. apply pneg_unique, padd_0_l. Qed.
Lemma pneg_neg P : pneg (pneg P) = P.
Proof. symmetry. apply pneg_unique, padd_neg_l. Qed.
Lemma pneg_add P Q : pneg (padd P Q) = padd (pneg P) (pneg Q).
Proof.
  symmetry. apply pneg_unique. rewrite (padd_comm P Q), padd_assoc, <- (padd_assoc P).
  now rewrite padd_neg, padd_0_l, padd_neg.
Qed.
Lemma padd_swap P Q R : padd P (padd Q R) = padd Q (padd P R).
Proof. rewrite <- !padd_assoc. now rewrite (padd_comm P Q). Qed.

Lemma zmul_0 P : zmul 0 P = pzero. Proof. reflexivity. Qed.
Lemma zmul_1 P : zmul 1 P = P. Proof. apply padd_0_r. Qed.
Lemma zmul_opp n P : zmul (- n) P = pneg (zmul n P).
Proof. destruct n; cbn [zmul Z.opp]; [now rewrite pneg_0|reflexivity|now rewrite pneg_neg]. Qed.
Lemma zmul_succ n P : zmul (n + 1) P = padd P (zmul n P).
Proof.
  assert (S : forall k, zmul (Zpos k + 1) P = padd P (zmul (Zpos k) P)).
  { intros k. replace (Zpos k + 1) with (Zpos (Pos.succ k)) by lia. cbn [zmul].
    apply Pos.iter_succ. }
  destruct n as [|k|k]; [reflexivity|apply S|].
  destruct (Pos.eq_dec k 1) as [->|N].
  - change (Z.neg 1 + 1) with 0. rewrite zmul_0. change (Z.neg 1) with (- (1)).
    rewrite zmul_opp, zmul_1, padd_neg. reflexivity.
  - replace (Z.neg k + 1) with (- Zpos (Pos.pred k)) by lia.
    change (Z.neg k) with (- Zpos k). rewrite !zmul_opp.
    replace (Zpos k) with (Zpos (Pos.pred k) + 1) by lia. rewrite S.
    rewrite pneg_add, <- padd_assoc, padd_neg, padd_0_l. reflexivity.
Qed.
Lemma zmul_pred n P : zmul (n - 1) P = padd (pneg P) (zmul n P).
Proof.
  replace n with (n - 1 + 1) at 2 by lia. rewrite zmul_succ, <- padd_assoc, padd_neg_l, padd_0_l.
  reflexivity.
Qed.
Theorem zmul_add m n P : zmul (m + n) P = padd (zmul m P) (zmul n P).
Proof.
  revert m. apply Z.peano_ind.
  - now rewrite zmul_0, padd_0_l.
  - intros m IH. replace (Z.succ m + n) with (m + n + 1) by lia. unfold Z.succ.
    now rewrite !zmul_succ, IH, padd_assoc.
  - intros m IH. replace (Z.pred m + n) with (m + n - 1) by lia.
    replace (Z.pred m) with (m - 1) by lia. now rewrite !zmul_pred, IH, padd_assoc.
Qed.
Lemma zmul_zero n : zmul n pzero = pzero.
Proof.
  revert n. apply Z.peano_ind; [reflexivity| |]; intros m IH.
  - unfold Z.succ. now rewrite zmul_succ, IH, padd_0_l.
  - replace (Z.pred m) with (m - 1) by lia. now rewrite zmul_pred, IH, pneg_0, padd_0_l.
Qed.
Theorem zmul_padd n P Q : zmul n (padd P Q) = padd (zmul n P) (zmul n Q).
Proof.
  revert n. apply Z.peano_ind; [now rewrite !zmul_0, padd_0_l| |]; intros m IH.
  - unfold Z.succ. rewrite !zmul_succ, IH, !padd_assoc. f_equal. apply padd_swap.
  - replace (Z.pred m) with (m - 1) by lia. rewrite !zmul_pred, IH, pneg_add, !padd_assoc.
    f_equal. apply padd_swap.
Qed.
Theorem zmul_mul m n P : zmul (m * n) P = zmul m (zmul n P).
Proof.
  revert m. apply Z.peano_ind; [reflexivity| |]; intros m IH.
  - rewrite Z.mul_succ_l. unfold Z.succ. now rewrite zmul_add, zmul_succ, IH, padd_comm.
  - rewrite Z.mul_pred_l. replace (Z.pred m) with (m - 1) by lia. unfold Z.sub at 1.
    now rewrite zmul_add, zmul_opp, zmul_pred, IH, padd_comm.
Qed.
Lemma zmul_neg n P : zmul n (pneg P) = pneg (zmul n P).
Proof.
  change (pneg P) with (pneg P). rewrite <- (zmul_1 P) at 1. rewrite <- zmul_opp, <- zmul_mul, <- zmul_opp.
  f_equal. lia.
Qed.
Lemma zmul_sub m n P : zmul (m - n) P = psub (zmul m P) (zmul n P).
Proof. unfold Z.sub, psub. now rewrite zmul_add, zmul_opp. Qed.
Lemma zmul_2 P : zmul 2 P = padd P P.
Proof. change 2 with (1 + 1). now rewrite zmul_add, zmul_1. Qed.
