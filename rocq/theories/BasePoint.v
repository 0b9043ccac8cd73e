(** The base point of Ed25519 and its order (specification level). *)
From Coq Require Import List ZArith Lia Bool Znumtheory Ring Field.
From Verif Require Import GoBase FieldSpec Primality Fp Curve BaseCert.
Import ListNotations.
Open Scope Z_scope.

(** canonical representatives with the fast reduction *)
Definition addp (a b : Z) : Z := redp (a + b).
Definition subp (a b : Z) : Z := redp (a + (p25519 - b)).
Definition can (a : Z) : Prop := 0 <= a < p25519.
Lemma val_can a : can (val a). Proof. apply val_range. Qed.
Lemma val_inF_can z : can z -> val (inF z) = z.
Proof. intros H. rewrite val_inF. apply Z.mod_small, H. Qed.
Lemma addp_val a b : addp (val a) (val b) = val (a + b)%F.
Proof.
  rewrite <- (inF_val a), <- (inF_val b) at 2. rewrite <- inF_add, val_inF.
  apply redp_ok. pose proof (val_range a). pose proof (val_range b). unfold p25519 in *. lia.
Qed.
Lemma subp_val a b : subp (val a) (val b) = val (a - b)%F.
Proof.
  rewrite <- (inF_val a), <- (inF_val b) at 2. rewrite <- inF_sub, val_inF. unfold subp.
  rewrite redp_ok by (pose proof (val_range a); pose proof (val_range b); unfold p25519 in *; lia).
  replace (val a + (p25519 - val b)) with (val a - val b + 1 * p25519) by lia.
  apply Z.mod_add. exact p_nz.
Qed.

Lemma Fd_val : val Fd = Fd_z.
Proof.
  assert (E : Fd = inF Fd_z); [|rewrite E; apply val_inF_can; split; vm_compute; congruence].
  apply (F_mul_cancel _ _ _ F121666_nz). rewrite Fd_eq. apply F_eq. vm_compute. reflexivity.
Qed.

Lemma B_on : on_curve (inF Bx_z) (inF By_z).
Proof.
  unfold on_curve. rewrite <- (inF_val Fd), Fd_val. apply F_eq. vm_compute. reflexivity.
Qed.
Definition Bpt : point := mkpt _ _ B_on.
(** the y coordinate is 4/5 and x is even (RFC 8032) *)
Lemma B_y : (inF 5 * py Bpt = inF 4)%F.
Proof. apply F_eq. vm_compute. reflexivity. Qed.
Lemma B_x_even : Fneg (px Bpt) = false.
Proof. vm_compute. reflexivity. Qed.

(** ** checking sums by cross multiplication *)
Definition pz (P : point) (c : Z * Z) : Prop := val (px P) = fst c /\ val (py P) = snd c.
Lemma pz_eq P Q c : pz P c -> pz Q c -> P = Q.
Proof.
  intros [A B] [C D]. apply point_eq; apply F_eq; congruence.
Qed.
Definition canb (c : Z * Z) : bool :=
  (0 <=? fst c) && (fst c <? p25519) && (0 <=? snd c) && (snd c <? p25519).
Lemma canb_ok c : canb c = true -> can (fst c) /\ can (snd c).
Proof. unfold canb, can. rewrite !andb_true_iff, !Z.leb_le, !Z.ltb_lt. tauto. Qed.

Definition chk_add (a b c : Z * Z) : bool :=
  let '(x1, y1) := a in let '(x2, y2) := b in let '(x3, y3) := c in
  let xx := mulp x1 x2 in let yy := mulp y1 y2 in
  let k := mulp Fd_z (mulp xx yy) in
  canb c && (mulp x3 (addp 1 k) =? addp (mulp x1 y2) (mulp x2 y1))
         && (mulp y3 (subp 1 k) =? addp yy xx).
Definition chk_dbl (a c : Z * Z) : bool :=
  let '(x1, y1) := a in let '(x3, y3) := c in
  let xx := mulp x1 x1 in let yy := mulp y1 y1 in let xy := mulp x1 y1 in
  let k1 := subp yy xx in
  canb c && (mulp x3 k1 =? addp xy xy)
         && (mulp y3 (subp 2 k1) =? addp yy xx).

Lemma F_div_eq a b c : c <> F0 -> (a * c = b)%F -> a = (b / c)%F.
Proof. intros N H. rewrite <- H. field. exact N. Qed.

Lemma chk_add_ok P Q a b c : pz P a -> pz Q b -> chk_add a b c = true -> pz (padd P Q) c.
Proof.
  destruct P as [X1 Y1 C1], Q as [X2 Y2 C2], a as [x1 y1], b as [x2 y2], c as [x3 y3].
  unfold pz, chk_add. cbn [px py fst snd padd]. intros [<- <-] [<- <-] H.
  apply andb_prop in H as [H H3]. apply andb_prop in H as [H1 H2]. apply canb_ok in H1 as [H1 H1'].
  cbn [fst snd] in *. apply Z.eqb_eq in H2, H3.
  pose proof (complete_p _ _ _ _ C1 C2) as Np. pose proof (complete_m _ _ _ _ C1 C2) as Nm.
  rewrite <- Fd_val, <- (val_inF_can x3 H1) in H2. rewrite <- Fd_val, <- (val_inF_can y3 H1') in H3.
  assert (V1 : 1 = val F1) by (vm_compute; reflexivity). rewrite V1 in H2, H3 at 1.
  repeat (rewrite mulp_val in H2 || rewrite addp_val in H2 || rewrite subp_val in H2).
  repeat (rewrite mulp_val in H3 || rewrite addp_val in H3 || rewrite subp_val in H3).
  apply F_eq in H2, H3.
  split.
  - rewrite <- (val_inF_can x3 H1). f_equal. unfold add_x. symmetry. apply F_div_eq; [exact Np|].
    rewrite <- H2. ring.
  - rewrite <- (val_inF_can y3 H1'). f_equal. unfold add_y. symmetry. apply F_div_eq; [exact Nm|].
    rewrite <- H3. ring.
Qed.
Lemma chk_dbl_ok P a c : pz P a -> chk_dbl a c = true -> pz (padd P P) c.
Proof.
  destruct P as [X1 Y1 C1], a as [x1 y1], c as [x3 y3].
  unfold pz, chk_dbl. cbn [px py fst snd padd]. intros [<- <-] H.
  apply andb_prop in H as [H H3]. apply andb_prop in H as [H1 H2]. apply canb_ok in H1 as [H1 H1'].
  cbn [fst snd] in *. apply Z.eqb_eq in H2, H3.
  pose proof (complete_p _ _ _ _ C1 C1) as Np. pose proof (complete_m _ _ _ _ C1 C1) as Nm.
  rewrite <- (val_inF_can x3 H1) in H2. rewrite <- (val_inF_can y3 H1') in H3.
  assert (V1 : 2 = val (inF 2)) by (vm_compute; reflexivity). rewrite V1 in H3 at 1.
  repeat (rewrite mulp_val in H2 || rewrite addp_val in H2 || rewrite subp_val in H2).
  repeat (rewrite mulp_val in H3 || rewrite addp_val in H3 || rewrite subp_val in H3).
  apply F_eq in H2, H3. unfold on_curve in C1.
  split.
  - rewrite <- (val_inF_can x3 H1). f_equal. unfold add_x. symmetry. apply F_div_eq; [exact Np|].
    transitivity (inF x3 * (1 + Fd * (X1 * X1) * (Y1 * Y1)))%F; [ring|]. rewrite <- C1, H2. ring.
  - rewrite <- (val_inF_can y3 H1'). f_equal. unfold add_y. symmetry. apply F_div_eq; [exact Nm|].
    transitivity (inF y3 * (inF 2 - (1 + Fd * (X1 * X1) * (Y1 * Y1))))%F; [ring|]. rewrite <- C1, H3. ring.
Qed.

(** ** the order of the base point *)
Definition Bz : Z * Z := (Bx_z, By_z).
Lemma B_pz : pz Bpt Bz.
Proof. split; vm_compute; reflexivity. Qed.

Fixpoint walk_ok (cur : Z * Z) (l : list (bool * (Z * Z))) : bool :=
  match l with
  | [] => (fst cur =? 0) && (snd cur =? 1)
  | (op, c) :: r => (if op then chk_add cur Bz c else chk_dbl cur c) && walk_ok c r
  end.
Fixpoint walk_exp (n : Z) (l : list (bool * (Z * Z))) : Z :=
  match l with
  | [] => n
  | (true, _) :: r => walk_exp (n + 1) r
  | (false, _) :: r => walk_exp (2 * n) r
  end.
Lemma walk_ok_sound l : forall n cur, pz (zmul n Bpt) cur -> walk_ok cur l = true ->
  zmul (walk_exp n l) Bpt = pzero.
Proof.
  induction l as [|[[] c] l IH]; intros n cur H W; cbn [walk_ok walk_exp] in *.
  - apply andb_prop in W as [W1 W2]. apply Z.eqb_eq in W1, W2. apply pz_eq with cur; [exact H|].
    split; [rewrite W1|rewrite W2]; vm_compute; reflexivity.
  - apply andb_prop in W as [W1 W2]. apply (IH (n + 1) c); [|exact W2].
    rewrite zmul_add, zmul_1. eapply chk_add_ok; [exact H|exact B_pz|exact W1].
  - apply andb_prop in W as [W1 W2]. apply (IH (2 * n) c); [|exact W2].
    rewrite zmul_mul, zmul_2. eapply chk_dbl_ok; [exact H|exact W1].
Qed.
Lemma order_walk_ok : walk_ok Bz order_walk = true.
Proof. vm_compute. reflexivity. Qed.
Lemma order_walk_exp : walk_exp 1 order_walk = q25519.
Proof. vm_compute. reflexivity. Qed.

Theorem order_B : zmul q25519 Bpt = pzero.
Proof.
  rewrite <- order_walk_exp. apply (walk_ok_sound _ 1 Bz); [|exact order_walk_ok].
  rewrite zmul_1. exact B_pz.
Qed.
Lemma B_nz : Bpt <> pzero.
Proof.
  intros H. assert (E : val (py Bpt) = val (py pzero)) by (rewrite H; reflexivity).
  vm_compute in E. discriminate E.
Qed.
Lemma zmul_mod_q n : zmul (n mod q25519) Bpt = zmul n Bpt.
Proof.
  rewrite (Z.div_mod n q25519) at 2 by discriminate.
  rewrite zmul_add, Z.mul_comm, zmul_mul, order_B, zmul_zero, padd_0_l. reflexivity.
Qed.
(** multiples of the base point agree exactly when the scalars agree modulo q *)
Theorem zmul_B_inj m n : zmul m Bpt = zmul n Bpt <-> m mod q25519 = n mod q25519.
Proof.
  split; intros H.
  2:{ now rewrite <- (zmul_mod_q m), <- (zmul_mod_q n), H. }
  apply mod_eq_div; [discriminate|].
  assert (E : zmul (m - n) Bpt = pzero) by (rewrite zmul_sub, H; apply padd_neg).
  destruct (Zdivide_dec q25519 (m - n)) as [D|ND]; [exact D|exfalso].
  pose proof (prime_rel_prime _ prime_q25519 _ ND) as R. apply rel_prime_bezout in R as [u v B].
  apply B_nz. rewrite <- (zmul_1 Bpt).
  change (2 ^ 252 + 27742317777372353535851937790883648493) with q25519 in B.
  rewrite <- B, zmul_add, !zmul_mul, order_B, E, !zmul_zero, padd_0_l. reflexivity.
Qed.

(** ** rows of multiples *)
Fixpoint chain_add (R cur : Z * Z) (l : list (Z * Z)) : bool :=
  match l with [] => true | c :: r => chk_add cur R c && chain_add R c r end.
Fixpoint chain_dbl (cur : Z * Z) (l : list (Z * Z)) : bool :=
  match l with [] => true | c :: r => chk_dbl cur c && chain_dbl c r end.

(** [mults P k l]: l lists the coordinates of the points k(0) P, k(1) P, ... *)
Lemma chain_add_ok S R l : forall n cur P s, pz (zmul n P) cur -> pz (zmul s P) R -> S = s ->
  chain_add R cur l = true ->
  forall i c, nth_error l i = Some c -> pz (zmul (n + S * (Z.of_nat i + 1)) P) c.
Proof.
  induction l as [|c l IH]; intros n cur P s H HR E W i c' Hi; [destruct i; discriminate Hi|].
  cbn [chain_add] in W. apply andb_prop in W as [W1 W2].
  assert (H1 : pz (zmul (n + s) P) c) by (rewrite zmul_add; eapply chk_add_ok; eassumption).
  destruct i as [|i]; cbn [nth_error] in Hi.
  - injection Hi as <-. replace (n + S * (Z.of_nat 0 + 1)) with (n + s) by lia. exact H1.
  - pose proof (IH _ _ _ _ H1 HR E W2 i c' Hi) as G.
    replace (n + S * (Z.of_nat (Datatypes.S i) + 1)) with (n + s + S * (Z.of_nat i + 1)) by lia. exact G.
Qed.
Lemma chain_dbl_ok l : forall n cur P, pz (zmul n P) cur -> chain_dbl cur l = true ->
  forall i c, nth_error l i = Some c -> pz (zmul (n * 2 ^ (Z.of_nat i + 1)) P) c.
Proof.
  induction l as [|c l IH]; intros n cur P H W i c' Hi; [destruct i; discriminate Hi|].
  cbn [chain_dbl] in W. apply andb_prop in W as [W1 W2].
  assert (H1 : pz (zmul (n * 2) P) c)
    by (rewrite Z.mul_comm, zmul_mul, zmul_2; eapply chk_dbl_ok; eassumption).
  destruct i as [|i]; cbn [nth_error] in Hi.
  - injection Hi as <-. exact H1.
  - pose proof (IH _ _ _ H1 W2 i c' Hi) as G.
    replace (n * 2 ^ (Z.of_nat (S i) + 1)) with (n * 2 * 2 ^ (Z.of_nat i + 1)); [exact G|].
    replace (Z.of_nat (S i) + 1) with (1 + (Z.of_nat i + 1)) by lia.
    rewrite (Z.pow_add_r 2 1) by lia. ring.
Qed.

(** all rows: row starts at R, lists R .. 8R; the doublings end at the next row's start *)
Definition pair_eqb (a b : Z * Z) : bool := (fst a =? fst b) && (snd a =? snd b).
Fixpoint rows_ok (R : Z * Z) (rows dbls : list (list (Z * Z))) : bool :=
  match rows, dbls with
  | [], [] => true
  | (c :: row) :: rows', dbl :: dbls' =>
      pair_eqb c R && chain_add R R row && chain_dbl R dbl && Nat.eqb (length dbl) 8 &&
      rows_ok (nth 7 dbl (0, 0)) rows' dbls'
  | _, _ => false
  end.
Lemma pair_eqb_eq a b : pair_eqb a b = true -> a = b.
Proof.
  unfold pair_eqb. rewrite andb_true_iff, !Z.eqb_eq. destruct a, b; cbn. intros [-> ->]. reflexivity.
Qed.
Lemma rows_ok_sound P : forall rows dbls R n, pz (zmul n P) R -> rows_ok R rows dbls = true ->
  forall i row j c, nth_error rows i = Some row -> nth_error row j = Some c ->
  pz (zmul (n * 256 ^ Z.of_nat i * (Z.of_nat j + 1)) P) c.
Proof.
  induction rows as [|row0 rows IH]; intros dbls R n H W i row j c Hi Hj; [destruct i; discriminate Hi|].
  destruct row0 as [|c0 row0]; [destruct dbls; discriminate W|].
  destruct dbls as [|dbl dbls]; [discriminate W|]. cbn [rows_ok] in W.
  apply andb_prop in W as [W W5]. apply andb_prop in W as [W W4]. apply andb_prop in W as [W W3].
  apply andb_prop in W as [W1 W2]. apply pair_eqb_eq in W1. subst c0. apply Nat.eqb_eq in W4.
  destruct i as [|i]; cbn [nth_error] in Hi.
  - injection Hi as <-. destruct j as [|j]; cbn [nth_error] in Hj.
    + injection Hj as <-. replace (n * 256 ^ Z.of_nat 0 * (Z.of_nat 0 + 1)) with n by lia. exact H.
    + pose proof (chain_add_ok _ _ _ _ _ _ _ H H eq_refl W2 j c Hj) as G.
      replace (n * 256 ^ Z.of_nat 0 * (Z.of_nat (S j) + 1)) with (n + n * (Z.of_nat j + 1)) by lia.
      exact G.
  - assert (D : nth_error dbl 7 = Some (nth 7 dbl (0, 0))) by (apply nth_error_nth'; lia).
    pose proof (chain_dbl_ok _ _ _ _ H W3 7%nat _ D) as G.
    change (2 ^ (Z.of_nat 7 + 1)) with 256 in G.
    pose proof (IH _ _ _ G W5 i row j c Hi Hj) as G2.
    replace (n * 256 ^ Z.of_nat (S i)) with (n * 256 * 256 ^ Z.of_nat i); [exact G2|].
    rewrite Nat2Z.inj_succ, Z.pow_succ_r by lia. ring.
Qed.
Lemma rows_check : rows_ok Bz row_pts dbl_pts = true.
Proof. vm_compute. reflexivity. Qed.
Theorem row_pts_ok i row j c : nth_error row_pts i = Some row -> nth_error row j = Some c ->
  pz (zmul (256 ^ Z.of_nat i * (Z.of_nat j + 1)) Bpt) c.
Proof.
  intros Hi Hj. pose proof (rows_ok_sound Bpt row_pts dbl_pts Bz 1) as G.
  rewrite zmul_1 in G. specialize (G B_pz rows_check i row j c Hi Hj).
  now rewrite Z.mul_1_l in G.
Qed.
Definition odd_check : bool :=
  match odd_pts with
  | c :: l => pair_eqb c Bz && chain_add (nth 0 (nth 0 dbl_pts []) (0, 0)) Bz l
  | [] => false
  end.
Lemma odd_check_ok : odd_check = true.
Proof. vm_compute. reflexivity. Qed.
Theorem odd_pts_ok j c : nth_error odd_pts j = Some c -> pz (zmul (2 * Z.of_nat j + 1) Bpt) c.
Proof.
  pose proof odd_check_ok as W. unfold odd_check in W.
  assert (H2 : pz (zmul 2 Bpt) (nth 0 (nth 0 dbl_pts []) (0, 0))).
  { rewrite zmul_2. eapply chk_dbl_ok; [exact B_pz|]. vm_compute. reflexivity. }
  destruct odd_pts as [|c0 l]; [discriminate W|]. apply andb_prop in W as [W1 W2].
  apply pair_eqb_eq in W1. subst c0. intros Hj.
  assert (H1 : pz (zmul 1 Bpt) Bz) by (rewrite zmul_1; exact B_pz).
  destruct j as [|j]; cbn [nth_error] in Hj; [injection Hj as <-; exact H1|].
  pose proof (chain_add_ok _ _ _ _ _ _ _ H1 H2 eq_refl W2 j c Hj) as G.
  replace (2 * Z.of_nat (S j) + 1) with (1 + 2 * (Z.of_nat j + 1)) by lia. exact G.
Qed.
