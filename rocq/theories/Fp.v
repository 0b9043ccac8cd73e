(** The field of integers modulo p = 2^255 - 19 (specification level). *)
From Coq Require Import ZArith Lia Bool Znumtheory Eqdep_dec Ring Field Setoid.
From Verif Require Import GoBase FieldSpec Primality.
Open Scope Z_scope.

Definition F : Set := {v : Z | v mod p25519 = v}.
Definition val (x : F) : Z := proj1_sig x.
Definition inF (z : Z) : F := exist _ (z mod p25519) (Zmod_mod z p25519).

Definition F0 : F := inF 0.
Definition F1 : F := inF 1.
Definition Fadd (a b : F) : F := inF (val a + val b).
Definition Fmul (a b : F) : F := inF (val a * val b).
Definition Fsub (a b : F) : F := inF (val a - val b).
Definition Fopp (a : F) : F := inF (- val a).
(** a^n; sealed, so that no tactic or conversion ever tries to compute a^(p-2) by repeated
    multiplication *)
Definition Fpow_sealed : {f : F -> Z -> F | forall a n, f a n = inF (val a ^ n)}.
Proof. exists (fun a n => inF (val a ^ n)). reflexivity. Qed.
Definition Fpow (a : F) (n : Z) : F := proj1_sig Fpow_sealed a n.
Lemma Fpow_eq a n : Fpow a n = inF (val a ^ n).
Proof. exact (proj2_sig Fpow_sealed a n). Qed.
Definition Finv (a : F) : F := Fpow a (p25519 - 2).
Definition Fdiv (a b : F) : F := Fmul a (Finv b).

Lemma p_pos : 1 < p25519. Proof. reflexivity. Qed.
Lemma p_nz : p25519 <> 0. Proof. discriminate. Qed.
Lemma p_prime : prime p25519. Proof. exact prime_p25519. Qed.

Lemma F_eq (a b : F) : val a = val b -> a = b.
Proof.
  destruct a as [x Hx], b as [y Hy]. cbn [val proj1_sig]. intros <-. f_equal.
  apply UIP_dec, Z.eq_dec.
Qed.
Lemma val_range a : 0 <= val a < p25519.
Proof. destruct a as [x Hx]. cbn [val proj1_sig]. rewrite <- Hx. apply Z.mod_pos_bound. reflexivity. Qed.
Lemma val_inF z : val (inF z) = z mod p25519.
Proof. reflexivity. Qed.
Lemma inF_val a : inF (val a) = a.
Proof. apply F_eq. rewrite val_inF. apply Z.mod_small, val_range. Qed.
Lemma inF_eqp a b : inF a = inF b <-> eqp a b.
Proof.
  unfold eqp. rewrite <- mod_eq_div by exact p_nz. split; intros H.
  - apply (f_equal val) in H. exact H.
  - apply F_eq. exact H.
Qed.
Lemma inF_add a b : inF (a + b) = Fadd (inF a) (inF b).
Proof. apply F_eq. unfold Fadd. rewrite !val_inF. apply Zplus_mod. Qed.
Lemma inF_mul a b : inF (a * b) = Fmul (inF a) (inF b).
Proof. apply F_eq. unfold Fmul. rewrite !val_inF. apply Zmult_mod. Qed.
Lemma inF_sub a b : inF (a - b) = Fsub (inF a) (inF b).
Proof. apply F_eq. unfold Fsub. rewrite !val_inF. apply Zminus_mod. Qed.
Lemma inF_opp a : inF (- a) = Fopp (inF a).
Proof.
  apply inF_eqp. rewrite val_inF. unfold eqp. exists (- (a / p25519)).
  pose proof (Z.div_mod a p25519 p_nz). lia.
Qed.
Lemma inF_pow a n : 0 <= n -> inF (a ^ n) = Fpow (inF a) n.
Proof.
  intros Hn. apply F_eq. rewrite !Fpow_eq. rewrite !val_inF. apply Zpow_facts.Zpower_mod. reflexivity.
Qed.

(** lift an identity on Z to F *)
Lemma F_ring : ring_theory F0 F1 Fadd Fmul Fsub Fopp (@eq F).
Proof.
  constructor; intros;
  repeat match goal with x : F |- _ => rewrite <- (inF_val x); generalize (val x); clear x; intros x end;
  unfold F0, F1; rewrite <- ?inF_opp, <- ?inF_sub, <- ?inF_mul, <- ?inF_add;
  rewrite <- ?inF_opp, <- ?inF_sub, <- ?inF_mul, <- ?inF_add;
  rewrite <- ?inF_mul, <- ?inF_add; f_equal; ring.
Qed.
Lemma F_morph : ring_morph F0 F1 Fadd Fmul Fsub Fopp (@eq F)
   0 1 Z.add Z.mul Z.sub Z.opp Z.eqb inF.
Proof.
  constructor; try reflexivity.
  - exact inF_add. - exact inF_sub. - exact inF_mul. - exact inF_opp.
  - intros x y E. apply Z.eqb_eq in E. now subst.
Qed.

Lemma F1_neq_F0 : F1 <> F0.
Proof. intros H. apply (f_equal val) in H. discriminate H. Qed.
Lemma val_ndiv a : a <> F0 -> ~ (p25519 | val a).
Proof.
  intros H D. apply H, F_eq. change (val F0) with 0.
  pose proof (val_range a). destruct (Z.eq_dec (val a) 0); [assumption|].
  apply Z.divide_pos_le in D; lia.
Qed.
Theorem F_fermat a : a <> F0 -> Fpow a (p25519 - 1) = F1.
Proof.
  intros H. apply F_eq. rewrite !Fpow_eq. rewrite val_inF.
  exact (fermat _ _ p_prime (val_ndiv a H)).
Qed.
Lemma Fpow_add a m n : 0 <= m -> 0 <= n -> Fpow a (m + n) = Fmul (Fpow a m) (Fpow a n).
Proof. intros. rewrite !Fpow_eq. rewrite Z.pow_add_r by assumption. apply inF_mul. Qed.
Lemma Fpow_1 a : Fpow a 1 = a.
Proof. rewrite !Fpow_eq. rewrite Z.pow_1_r. apply inF_val. Qed.
Lemma Fpow_0 a : Fpow a 0 = F1.
Proof. rewrite Fpow_eq. reflexivity. Qed.
Lemma Fpow_mul a m n : 0 <= m -> 0 <= n -> Fpow a (m * n) = Fpow (Fpow a m) n.
Proof.
  intros. rewrite (Fpow_eq a (m * n)), (Fpow_eq a m). rewrite Z.pow_mul_r by assumption. apply inF_pow. assumption.
Qed.
Lemma Fpow_mul_base a b n : 0 <= n -> Fpow (Fmul a b) n = Fmul (Fpow a n) (Fpow b n).
Proof.
  intros Hn. rewrite (Fpow_eq a), (Fpow_eq b). rewrite <- inF_mul, <- Z.pow_mul_l.
  unfold Fmul. symmetry. apply inF_pow, Hn.
Qed.
Lemma Fpow_one n : 0 <= n -> Fpow F1 n = F1.
Proof. intros H. unfold F1. rewrite <- inF_pow by exact H. now rewrite Z.pow_1_l. Qed.
Lemma Fpow_zero n : 0 < n -> Fpow F0 n = F0.
Proof. intros H. unfold F0. rewrite <- inF_pow by lia. now rewrite Z.pow_0_l. Qed.

Add Ring Fring : F_ring (morphism F_morph).

Lemma Finv_l a : a <> F0 -> Fmul (Finv a) a = F1.
Proof.
  intros H. unfold Finv. rewrite <- (Fpow_1 a) at 2. rewrite <- Fpow_add by discriminate.
  replace (p25519 - 2 + 1) with (p25519 - 1) by lia. apply F_fermat, H.
Qed.
Lemma Finv_0 : Finv F0 = F0.
Proof. apply Fpow_zero. reflexivity. Qed.
Lemma F_field : field_theory F0 F1 Fadd Fmul Fsub Fopp Fdiv Finv (@eq F).
Proof.
  constructor; [exact F_ring|exact F1_neq_F0|reflexivity|exact Finv_l].
Qed.
Global Opaque Finv.

Ltac Fcst t :=
  match t with
  | F0 => constr:(0) | F1 => constr:(1)
  | inF ?z => match isZcst z with true => z | _ => constr:(InitialRing.NotConstant) end
  | _ => constr:(InitialRing.NotConstant)
  end.
Add Field Ffield : F_field (morphism F_morph, constants [Fcst]).

Declare Scope F_scope.
Delimit Scope F_scope with F.
Bind Scope F_scope with F.
Infix "+" := Fadd : F_scope.
Infix "*" := Fmul : F_scope.
Infix "-" := Fsub : F_scope.
Infix "/" := Fdiv : F_scope.
Notation "- x" := (Fopp x) : F_scope.
Notation "0" := F0 : F_scope.
Notation "1" := F1 : F_scope.
Notation "2" := (inF 2) : F_scope.

Lemma F_eq_dec (a b : F) : {a = b} + {a <> b}.
Proof.
  destruct (Z.eq_dec (val a) (val b)) as [E|N]; [left; apply F_eq, E|right; congruence].
Defined.
Lemma F_integral a b : (a * b = 0)%F -> a = F0 \/ b = F0.
Proof.
  intros H. destruct (F_eq_dec a F0) as [E|N]; [left; exact E|right].
  replace b with (Finv a * (a * b))%F by (field; exact N). rewrite H. ring.
Qed.
Lemma F_mul_nz a b : a <> F0 -> b <> F0 -> (a * b)%F <> F0.
Proof. intros Ha Hb H. apply F_integral in H. tauto. Qed.
Lemma F_mul_eq_0 a b : (a * b = 0)%F -> a <> F0 -> b = F0.
Proof. intros H N. apply F_integral in H. tauto. Qed.
Lemma F_sub_eq a b : (a - b = 0)%F <-> a = b.
Proof.
  split; intros H; [|subst; ring]. replace a with ((a - b) + b)%F by ring. rewrite H. ring.
Qed.
Lemma F_mul_cancel a b c : c <> F0 -> (a * c = b * c)%F -> a = b.
Proof.
  intros N H. apply F_sub_eq. apply (F_mul_eq_0 c); [|exact N].
  replace (c * (a - b))%F with (a * c - b * c)%F by ring. rewrite H. ring.
Qed.
Lemma F_sq_eq a b : (a * a = b * b)%F -> a = b \/ a = (- b)%F.
Proof.
  intros H. assert (E : ((a - b) * (a + b) = 0)%F) by (ring [H]).
  apply F_integral in E as [E|E]; [left|right].
  - apply F_sub_eq, E.
  - replace a with ((a + b) - b)%F by ring. rewrite E. ring.
Qed.
Lemma inF_nz z : ~ (p25519 | z) -> inF z <> F0.
Proof. intros H E. apply H. apply inF_eqp in E. unfold eqp in E. now rewrite Z.sub_0_r in E. Qed.
Lemma F2_nz : inF 2 <> F0.
Proof. intros H. apply (f_equal val) in H. discriminate H. Qed.
Lemma Finv_nz a : a <> F0 -> Finv a <> F0.
Proof.
  intros H E. pose proof (Finv_l a H) as I. rewrite E in I. apply F1_neq_F0. rewrite <- I. ring.
Qed.
Lemma F_neg_self a : a = (- a)%F -> a = F0.
Proof.
  intros H. assert (E : (inF 2 * a = 0)%F) by (transitivity (a + a)%F; [ring|rewrite H at 2; ring]).
  apply (F_mul_eq_0 _ _ E F2_nz).
Qed.

(** sign bit: parity of the representative *)
Definition Fneg (a : F) : bool := Z.odd (val a).
Lemma Fneg_opp a : a <> F0 -> Fneg (- a)%F = negb (Fneg a).
Proof.
  intros H. unfold Fneg, Fopp. rewrite val_inF. pose proof (val_range a) as R.
  assert (val a <> 0%Z) by (intros E; apply H; apply F_eq; exact E).
  replace (- val a mod p25519) with (p25519 - val a)
    by (apply Z.mod_unique with (-1); [left; lia|lia]).
  rewrite Z.odd_sub. change (Z.odd p25519) with true. now destruct (Z.odd (val a)).
Qed.

(** fast reduction, used for kernel computations only *)
Definition M255 : Z := Z.ones 255.
Definition fold1 (x : Z) : Z := Z.land x M255 + 19 * Z.shiftr x 255.
Definition redp (x : Z) : Z :=
  let y := fold1 (fold1 x) in if y <? p25519 then y else y - p25519.
Lemma fold1_eq x : fold1 x = x mod 2 ^ 255 + 19 * (x / 2 ^ 255).
Proof. unfold fold1, M255. now rewrite Z.land_ones, Z.shiftr_div_pow2. Qed.
Lemma fold1_mod x : fold1 x mod p25519 = x mod p25519.
Proof.
  rewrite fold1_eq. apply mod_eq_div; [exact p_nz|].
  pose proof (Z.div_mod x (2 ^ 255) ltac:(discriminate)). exists (- (x / 2 ^ 255)).
  unfold p25519. lia.
Qed.
Lemma redp_ok x : (0 <= x < 2 ^ 511)%Z -> redp x = x mod p25519.
Proof.
  intros Hx. unfold redp. rewrite <- (fold1_mod x), <- (fold1_mod (fold1 x)).
  assert (B1 : 0 <= fold1 x < 2 ^ 262).
  { rewrite fold1_eq. pose proof (Z.mod_pos_bound x (2 ^ 255) ltac:(reflexivity)).
    assert (0 <= x / 2 ^ 255 < 2 ^ 256); [|lia].
    split; [apply Z.div_pos; lia|apply Z.div_lt_upper_bound; lia]. }
  assert (B2 : 0 <= fold1 (fold1 x) < 2 ^ 255 + 2 ^ 13).
  { rewrite (fold1_eq (fold1 x)). pose proof (Z.mod_pos_bound (fold1 x) (2 ^ 255) ltac:(reflexivity)).
    assert (0 <= fold1 x / 2 ^ 255 < 2 ^ 7); [|lia].
    split; [apply Z.div_pos; lia|apply Z.div_lt_upper_bound; lia]. }
  set (y := fold1 (fold1 x)) in *. clearbody y.
  destruct (y <? p25519) eqn:E.
  - apply Z.ltb_lt in E. symmetry. apply Z.mod_small. lia.
  - apply Z.ltb_ge in E. apply Z.mod_unique with 1; unfold p25519 in *; lia.
Qed.
(** products of canonical values *)
Definition mulp (a b : Z) : Z := redp (a * b).
Lemma mulp_ok a b : val (inF a * inF b)%F = mulp (val (inF a)) (val (inF b)).
Proof.
  unfold Fmul. rewrite val_inF. symmetry. apply redp_ok.
  pose proof (val_range (inF a)). pose proof (val_range (inF b)). unfold p25519 in *. nia.
Qed.
Lemma inF1_nz : inF 1 <> F0. Proof. exact F1_neq_F0. Qed.
Ltac fnz := repeat match goal with |- _ /\ _ => split end;
  first [assumption|exact inF1_nz|exact F1_neq_F0|exact F2_nz|idtac].
Global Opaque Fadd Fmul Fsub Fopp Finv Fdiv Fpow inF F0 F1.
