(** Proofs for C72. *)
From Coq Require Import List ZArith Lia Bool Ring Field Arith.
From Verif Require Import GoBase FieldModel FieldSpec FieldProofs ByteLemmas Fp Curve BasePoint GroupModel GroupSpec FieldPow GroupProofs
  PointCodec ScalarMul SlideProofs TextModel TextSpec PropGroupLemmas PropTextLemmas RecoverModel RecoverSpec.
Import ListNotations.
Open Scope Z_scope.

(** ** without panics: the elements of GroupModel *)
Lemma fill_row_ok n : forall Bi Bij r, prec_row n Bi Bij = Ok r -> fill_row n Bi Bij = (map Some r, false).
Proof.
  induction n as [|n IH]; intros Bi Bij r E; cbn [prec_row fill_row] in *; [injection E as <-; reflexivity|].
  destruct (add_P3 Bij Bi) as [B'| |]; cbn [bind] in E; [|discriminate E|discriminate E].
  destruct (prec_row n Bi B') as [r'| |] eqn:E2; cbn [bind] in E; [|discriminate E|discriminate E].
  injection E as <-. rewrite (IH _ _ _ E2). reflexivity.
Qed.
Lemma fill_row_bad n : forall Bi Bij, (forall r, prec_row n Bi Bij <> Ok r) -> snd (fill_row n Bi Bij) = true.
Proof.
  induction n as [|n IH]; intros Bi Bij E; cbn [prec_row fill_row] in *; [exfalso; exact (E [] eq_refl)|].
  destruct (add_P3 Bij Bi) as [B'| |]; cbn [bind] in E; [|reflexivity|reflexivity].
  specialize (IH Bi B'). destruct (fill_row n Bi B') as [r p]. apply IH. intros r' E2. rewrite E2 in E. exact (E _ eq_refl).
Qed.
Lemma fill_rows_ok n : forall Bi rs, prec_rows n Bi = Ok rs -> fill_rows n Bi = (map (map Some) rs, false).
Proof.
  induction n as [|n IH]; intros Bi rs E; cbn [prec_rows fill_rows] in *; [injection E as <-; reflexivity|].
  destruct (prec_row 8 Bi Bi) as [row| |] eqn:E1; cbn [bind] in E; [|discriminate E|discriminate E].
  rewrite (fill_row_ok _ _ _ _ E1). destruct (dbl_n 8 Bi) as [B'| |]; cbn [bind] in E; [|discriminate E|discriminate E].
  destruct (prec_rows n B') as [rs'| |] eqn:E2; cbn [bind] in E; [|discriminate E|discriminate E].
  injection E as <-. rewrite (IH _ _ E2). reflexivity.
Qed.
Lemma fill_rows_bad n : forall Bi, (forall r, prec_rows n Bi <> Ok r) -> snd (fill_rows n Bi) = true.
Proof.
  induction n as [|n IH]; intros Bi E; cbn [prec_rows fill_rows] in *; [exfalso; exact (E [] eq_refl)|].
  destruct (prec_row 8 Bi Bi) as [row| |] eqn:E1; cbn [bind] in E.
  - rewrite (fill_row_ok _ _ _ _ E1). destruct (dbl_n 8 Bi) as [B'| |]; cbn [bind] in E; [|reflexivity|reflexivity].
    specialize (IH B'). destruct (fill_rows n B') as [rs p]. apply IH. intros r' E2. rewrite E2 in E. exact (E _ eq_refl).
  - pose proof (fill_row_bad 8 Bi Bi) as K. destruct (fill_row 8 Bi Bi) as [r p]. cbn [snd] in K. rewrite K; [reflexivity|]. intros r0 X. rewrite E1 in X. discriminate X.
  - pose proof (fill_row_bad 8 Bi Bi) as K. destruct (fill_row 8 Bi Bi) as [r p]. cbn [snd] in K. rewrite K; [reflexivity|]. intros r0 X. rewrite E1 in X. discriminate X.
Qed.
Lemma fill_double_ok n : forall r Bi l, prec_double_loop n r Bi = Ok l -> fill_double n r Bi = (map Some l, false).
Proof.
  induction n as [|n IH]; intros r Bi l E; cbn [prec_double_loop fill_double] in *; [injection E as <-; reflexivity|].
  destruct (add_P3 r Bi) as [s| |]; cbn [bind] in E; [|discriminate E|discriminate E].
  destruct (add_P3 r s) as [B'| |]; cbn [bind] in E; [|discriminate E|discriminate E].
  destruct (prec_double_loop n r B') as [l'| |] eqn:E2; cbn [bind] in E; [|discriminate E|discriminate E].
  injection E as <-. rewrite (IH _ _ _ E2). reflexivity.
Qed.
Lemma fill_double_bad n : forall r Bi, (forall l, prec_double_loop n r Bi <> Ok l) -> snd (fill_double n r Bi) = true.
Proof.
  induction n as [|n IH]; intros r Bi E; cbn [prec_double_loop fill_double] in *; [exfalso; exact (E [] eq_refl)|].
  destruct (add_P3 r Bi) as [s| |]; cbn [bind] in E; [|reflexivity|reflexivity].
  destruct (add_P3 r s) as [B'| |]; cbn [bind] in E; [|reflexivity|reflexivity].
  specialize (IH r B'). destruct (fill_double n r B') as [l p]. apply IH. intros l' E2. rewrite E2 in E. exact (E _ eq_refl).
Qed.
Lemma copy_ok_panics rows rs : copy_rows rows = Ok rs -> existsb (fun row : list (option gcore) => Nat.ltb 8 (length row)) (map (map Some) rows) = false.
Proof.
  revert rs. induction rows as [|r rows IH]; intros rs E; [reflexivity|]. cbn [copy_rows map existsb] in *. unfold copy_row in E.
  rewrite map_length. destruct (Nat.ltb 8 (length r)); cbn [bind] in E; [discriminate E|].
  destruct (copy_rows rows) as [rs'| |]; cbn [bind] in E; [|discriminate E|discriminate E]. cbn [orb]. eapply IH. reflexivity.
Qed.
Lemma copy_bad_panics rows : (forall rs, copy_rows rows <> Ok rs) -> existsb (fun row : list (option gcore) => Nat.ltb 8 (length row)) (map (map Some) rows) = true.
Proof.
  induction rows as [|r rows IH]; intros E; [exfalso; exact (E [] eq_refl)|]. cbn [copy_rows map existsb] in *. unfold copy_row in E.
  rewrite map_length. destruct (Nat.ltb 8 (length r)); [reflexivity|]. cbn [bind orb] in *. apply IH. intros rs X. rewrite X in E. exact (E _ eq_refl).
Qed.
Lemma same_step g x : (forall g', pstep g x = Ok g' -> r_step (of_ge g) x = (of_ge g', false)) /\
  ((forall g', pstep g x <> Ok g') -> snd (r_step (of_ge g) x) = true).
Proof.
  destruct g as [c s d]. destruct x; cbn [pstep r_step].
  - unfold g_precompute_single, r_precompute_single, of_ge, g_copy. cbn [single core double r_single r_core r_double].
    destruct s as [rows|].
    + split; [intros g' X; injection X as <-; reflexivity|intros X; exfalso; exact (X _ eq_refl)].
    + cbn [copy_rows bind core]. split.
      * intros g' X. destruct (prec_rows 32 c) as [rows| |] eqn:E; cbn [bind] in X; [|discriminate X|discriminate X].
        injection X as <-. rewrite (fill_rows_ok _ _ _ E). reflexivity.
      * intros X. pose proof (fill_rows_bad 32 c) as K. destruct (fill_rows 32 c) as [rs p]. apply K. intros r E. rewrite E in X. exact (X _ eq_refl).
  - unfold g_precompute_double, r_precompute_double, of_ge, g_copy, copy_panics. cbn [single core double r_single r_core r_double].
    assert (D : match d with Some (_ :: _) => exists l, d = Some l /\ l <> [] | _ => True end).
    { destruct d as [[|y d]|]; [exact I| |exact I]. eexists. split; [reflexivity|discriminate]. }
    destruct d as [[|y d]|].
    2:{ cbn [map]. split; [intros g' X; injection X as <-; reflexivity|intros X; exfalso; exact (X _ eq_refl)]. }
    all: clear D; destruct s as [rows|]; cbn [copy_rows bind core map].
    all: try (destruct (copy_rows rows) as [rs| |] eqn:Ec; cbn [bind core];
      [rewrite (copy_ok_panics _ _ Ec)
      |split; [intros g' X; discriminate X|intros _; rewrite copy_bad_panics; [reflexivity|intros rs X; rewrite Ec in X; discriminate X]]
      |split; [intros g' X; discriminate X|intros _; rewrite copy_bad_panics; [reflexivity|intros rs X; rewrite Ec in X; discriminate X]]]).
    all: split;
      [intros g' X; destruct (prec_double_loop 8 c c) as [l| |] eqn:E; cbn [bind] in X; [|discriminate X|discriminate X];
       injection X as <-; rewrite (fill_double_ok _ _ _ _ E); reflexivity
      |intros X; pose proof (fill_double_bad 8 c c) as K; destruct (fill_double 8 c c) as [l p]; apply K; intros r E; rewrite E in X; exact (X _ eq_refl)].
Qed.
Lemma same_run cs : forall g g', prun g cs = Ok g' -> r_run (of_ge g) cs = (of_ge g', map (fun _ => false) cs).
Proof.
  induction cs as [|x cs IH]; intros g g' E; cbn [prun r_run map] in *; [injection E as <-; reflexivity|].
  destruct (pstep g x) as [g1| |] eqn:E1; cbn [bind] in E; [|discriminate E|discriminate E].
  rewrite (proj1 (same_step g x) _ E1). rewrite (IH _ _ E). reflexivity.
Qed.
Lemma no_panic c P : repc P3 c P -> forall cs, exists g, prun (new_ge c) cs = Ok g /\ r_run (r_new c) cs = (of_ge g, map (fun _ => false) cs).
Proof.
  intros H cs. destruct (history c P H cs) as (g & E & _). exists g. split; [exact E|]. exact (same_run cs _ _ E).
Qed.
Lemma loop_same row : forall bAbs i t, r_select_loop bAbs i (map Some row) t = of_plain (select_loop_int bAbs i row t).
Proof.
  induction row as [|el row IH]; intros bAbs i t; [reflexivity|]. cbn [map r_select_loop select_loop_int]. unfold r_cmov, g_cmov.
  destruct (byte_eq_int bAbs (i + 1) =? 1); [apply IH|]. destruct (byte_eq_int bAbs (i + 1) =? 0); [apply IH|reflexivity].
Qed.
Lemma select_same g pos b : r_select (of_ge g) pos b = of_plain (select_int g pos b).
Proof.
  unfold r_select, select_int, of_ge. cbn [r_single]. destruct (pos <? 0); [reflexivity|].
  destruct (single g) as [rows|]; [|reflexivity]. rewrite nth_error_map. destruct (nth_error rows (Z.to_nat pos)) as [row|]; [|reflexivity].
  cbn [option_map]. rewrite loop_same. destruct (select_loop_int _ 0 row zero_precomputed); reflexivity.
Qed.

(** ** the state a panic leaves *)
Definition half (c : gcore) : list (option gcore) := Some (prec_entry c) :: repeat None 7.
Definition rstate (c : gcore) (a b : bool) : rge :=
  RGe c (if a then Some (half c :: repeat [] 31) else None) (if b then Some (half c) else None).
Lemma half_step c x a b : g_cs c <> P3 \/ gT c = None ->
  r_step (rstate c a b) x = (rstate c (a || is_single x) (b || negb (is_single x)), negb (if is_single x then a else b)).
Proof.
  intros H. destruct x; cbn [r_step is_single negb]; rewrite ?orb_true_r, ?orb_false_r; unfold rstate.
  - destruct a; [reflexivity|]. unfold r_precompute_single. cbn [r_single r_core r_double]. cbn [fill_rows fill_row].
    rewrite add_P3_panic by auto. reflexivity.
  - destruct b; [reflexivity|]. unfold r_precompute_double, copy_panics. cbn [r_double r_single r_core].
    destruct a; [change (existsb _ _) with false|]; cbv iota; cbn [fill_double]; rewrite add_P3_panic by auto; reflexivity.
Qed.
Lemma half_run c : g_cs c <> P3 \/ gT c = None -> forall cs a b,
  fst (r_run (rstate c a b) cs) = rstate c (a || existsb is_single cs) (b || existsb (fun x => negb (is_single x)) cs) /\
  forall n x, nth_error cs n = Some x ->
    nth_error (snd (r_run (rstate c a b) cs)) n = Some (negb ((if is_single x then a else b) || existsb (fun y => Bool.eqb (is_single x) (is_single y)) (firstn n cs))).
Proof.
  intros H. induction cs as [|x cs IH]; intros a b.
  - cbn [r_run existsb fst]. rewrite !orb_false_r. split; [reflexivity|]. intros [|n] y E; discriminate E.
  - cbn [r_run existsb]. rewrite half_step by exact H. destruct (IH (a || is_single x) (b || negb (is_single x))) as [I1 I2].
    destruct (r_run _ cs) as [g'' ps]. cbn [fst snd] in *. rewrite !orb_assoc. split; [exact I1|].
    intros [|n] y E; cbn [nth_error firstn existsb] in *.
    + injection E as <-. rewrite orb_false_r. reflexivity.
    + rewrite (I2 _ _ E). f_equal. f_equal. destruct x, y; cbn [is_single negb Bool.eqb]; rewrite ?orb_true_r, ?orb_false_r; reflexivity || (rewrite orb_true_r; reflexivity) || idtac.
Qed.
Lemma half_history c : g_cs c <> P3 \/ gT c = None -> forall cs, exists g ps, r_run (r_new c) cs = (g, ps) /\ r_core g = c /\
  (In PSingle cs -> r_single g = Some ((Some (prec_entry c) :: repeat None 7) :: repeat [] 31)) /\
  (~ In PSingle cs -> r_single g = None) /\
  (In PDouble cs -> r_double g = Some (Some (prec_entry c) :: repeat None 7)) /\
  (~ In PDouble cs -> r_double g = None) /\
  (r_is_precomputed_double g = true <-> In PDouble cs) /\
  (forall n x p, nth_error cs n = Some x -> nth_error ps n = Some p -> (p = true <-> ~ In x (firstn n cs))) /\
  length ps = length cs.
Proof.
  intros H cs. destruct (half_run c H cs false false) as [E1 E2]. change (rstate c false false) with (r_new c) in E1, E2.
  assert (L : forall cs g, length (snd (r_run g cs)) = length cs).
  { clear. induction cs as [|x cs IH]; intros g; [reflexivity|]. cbn [r_run]. destruct (r_step g x) as [g1 p]. specialize (IH g1).
    destruct (r_run g1 cs) as [g2 ps]. cbn [snd length] in *. now rewrite IH. }
  specialize (L cs (r_new c)). destruct (r_run (r_new c) cs) as [g ps]. cbn [fst snd orb] in *. subst g.
  exists (rstate c (existsb is_single cs) (existsb (fun x => negb (is_single x)) cs)), ps. split; [reflexivity|]. split; [reflexivity|].
  pose proof (has_single cs) as Hs. pose proof (has_double cs) as Hd. unfold rstate, r_is_precomputed_double. cbn [r_single r_double].
  split; [intros I; apply Hs in I; rewrite I; reflexivity|].
  split; [intros I; destruct (existsb is_single cs); [destruct I; now apply Hs|reflexivity]|].
  split; [intros I; apply Hd in I; rewrite I; reflexivity|].
  split; [intros I; destruct (existsb (fun x => negb (is_single x)) cs); [destruct I; now apply Hd|reflexivity]|].
  split; [rewrite <- Hd; destruct (existsb (fun x => negb (is_single x)) cs); split; intros X; exact X || discriminate X|].
  split; [|exact L]. intros n x p A B. rewrite (E2 _ _ A) in B. injection B as <-.
  rewrite negb_true_iff. replace ((if is_single x then false else false) || _) with (existsb (fun y => Bool.eqb (is_single x) (is_single y)) (firstn n cs)) by (destruct (is_single x); reflexivity).
  rewrite <- not_true_iff_false. rewrite existsb_exists. split; intros N I; apply N.
  - exists x. split; [exact I|apply Bool.eqb_reflx].
  - destruct I as (y & I & E). destruct x, y; cbn in E; discriminate E || exact I.
Qed.
Lemma prec_entry_P2 b P : repc P2 b P -> repc PRECOMPUTED (prec_entry b) P.
Proof.
  intros H. apply rep_P2 in H as (X&Y&Z&T&->&B1&B2&B3&N&E1&E2).
  unfold prec_entry. cbn [gX gY gZ].
  assert (Bi : bnd 101 (fe_invert Z)) by (apply bnd_invert; bd).
  assert (Ei : rF (fe_invert Z) = Finv (rF Z)) by (apply rF_invert; bd).
  set (inv := fe_invert Z) in *. clearbody inv.
  assert (Bx : bnd 101 (fe_mul X inv)) by bd. assert (By : bnd 101 (fe_mul Y inv)) by bd.
  assert (Ex : rF (fe_mul X inv) = px P) by (rewrite rF_mul by bd; rewrite E1, Ei, Z_inv by exact N; reflexivity).
  assert (Ey : rF (fe_mul Y inv) = py P) by (rewrite rF_mul by bd; rewrite E2, Ei, Z_inv by exact N; reflexivity).
  set (x := fe_mul X inv) in *. set (y := fe_mul Y inv) in *. clearbody x y.
  apply mk_prec.
  - apply (bnd_add 101 101); bd || lia.
  - apply (bnd_sub 101 101); bd || lia.
  - bd.
  - rewrite (rF_add 101 101) by (bd || lia). now rewrite Ex, Ey.
  - rewrite (rF_sub 101 101) by (bd || lia). now rewrite Ex, Ey.
  - rewrite !rF_mul by bd. rewrite Ex, Ey, rF_d2. ring.
Qed.

(** ** Select on it *)
Lemma nil_loop n : forall bAbs i t,
  ((forall j, i < j <= i + Z.of_nat n -> bAbs mod 256 <> j mod 256) -> r_select_loop bAbs i (repeat None n) t = ROk t) /\
  ((exists j, i < j <= i + Z.of_nat n /\ bAbs mod 256 = j mod 256) -> r_select_loop bAbs i (repeat None n) t = RNil).
Proof.
  induction n as [|n IH]; intros bAbs i t; cbn [repeat r_select_loop].
  - split; [reflexivity|]. intros (j & Hj & _). lia.
  - unfold byte_eq_int. rewrite byte_eq_exact. destruct (IH bAbs (i + 1) t) as [I1 I2].
    destruct (Z.eqb_spec (bAbs mod 256) ((i + 1) mod 256)) as [Q|Q]; cbn [r_cmov Z.eqb Pos.eqb rbind].
    + split; [intros N; exfalso; apply (N (i + 1)); [lia|exact Q]|reflexivity].
    + split.
      * intros N. apply I1. intros j Hj. apply N. lia.
      * intros (j & Hj & Ej). apply I2. exists j. split; [|exact Ej]. assert (j <> i + 1) by (intros ->; exact (Q Ej)). lia.
Qed.
Lemma minus_pick t P b : repc PRECOMPUTED t P -> exists r,
  g_cmov t (newPrecomputed (gY t) (gX t) (fe_neg (gZ t))) (is_negative_ct b) = Ok r /\
  repc PRECOMPUTED r (if residue b <? 0 then pneg P else P).
Proof.
  intros H. rewrite residue_sign. unfold g_cmov. destruct (residue b <? 0); cbn [Z.eqb Pos.eqb]; eexists; (split; [reflexivity|]); [|exact H].
  apply prec_minus, H.
Qed.
Lemma nth_rows pos : 0 < pos < 32 -> forall h : list (option gcore), nth_error (h :: repeat [] 31) (Z.to_nat pos) = Some [].
Proof.
  intros H h. replace (Z.to_nat pos) with (S (Z.to_nat (pos - 1))) by lia. cbn [nth_error]. apply nth_error_repeat. lia.
Qed.
Lemma half_select g rows P b : r_single g = Some rows -> half_table rows P ->
  (forall pos, 0 < pos < 32 -> exists r, r_select g pos b = ROk r /\ repc PRECOMPUTED r pzero) /\
  (Z.abs (digit b) <= 1 -> exists r, r_select g 0 b = ROk r /\ repc PRECOMPUTED r (zmul (digit b) P)) /\
  (1 < Z.abs (digit b) -> r_select g 0 b = RNil).
Proof.
  intros Hs (e & He & ->). unfold r_select. rewrite Hs.
  pose proof (residue_abs b) as Ab. set (bAbs := w64 _) in *. clearbody bAbs.
  pose proof (residue_range b) as Rb.
  split.
  - intros pos Hp. rewrite (proj2 (Z.ltb_ge pos 0)) by lia. rewrite nth_rows by exact Hp. cbn [r_select_loop rbind].
    destruct (minus_pick _ _ b zero_prec_rep) as (r & Er & Hr). rewrite Er. exists r. split; [reflexivity|].
    destruct (residue b <? 0); [|exact Hr]. now rewrite pneg_0 in Hr.
  - cbn [Z.ltb Z.compare Z.to_nat nth_error]. cbn [r_select_loop]. unfold byte_eq_int. rewrite byte_eq_exact, Ab.
    destruct (nil_loop 7 bAbs (0 + 1) (if Z.abs (residue b) mod 256 =? (0 + 1) mod 256 then e else zero_precomputed)) as [N1 N2].
    assert (C : rbind (r_cmov zero_precomputed (Some e) (if Z.abs (residue b) mod 256 =? (0 + 1) mod 256 then 1 else 0)) (r_select_loop bAbs (0 + 1) (repeat None 7)) =
      r_select_loop bAbs (0 + 1) (repeat None 7) (if Z.abs (residue b) mod 256 =? (0 + 1) mod 256 then e else zero_precomputed)).
    { destruct (Z.abs (residue b) mod 256 =? (0 + 1) mod 256); reflexivity. }
    rewrite C. clear C. unfold digit in *.
    assert (M : residue b <> -256 -> Z.abs (residue b) mod 256 = Z.abs (residue b)) by (intros; apply Z.mod_small; lia).
    split.
    + intros D. rewrite N1.
      * cbn [rbind].
        assert (V : repc PRECOMPUTED (if Z.abs (residue b) mod 256 =? (0 + 1) mod 256 then e else zero_precomputed)
                      (if Z.abs (residue b) mod 256 =? (0 + 1) mod 256 then P else pzero)).
        { destruct (Z.abs (residue b) mod 256 =? (0 + 1) mod 256); [exact He|apply zero_prec_rep]. }
        destruct (minus_pick _ _ b V) as (r & Er & Hr). rewrite Er. exists r. split; [reflexivity|].
        match goal with H : repc _ r ?u |- repc _ r ?v => replace v with u; [exact H|] end.
        destruct (Z.eq_dec (residue b) (-256)) as [Q|Q]; [rewrite Q; cbn; apply pneg_0|]. rewrite (M Q). change ((0 + 1) mod 256) with 1.
        destruct (Z.eqb_spec (Z.abs (residue b)) 1) as [O|O].
        -- replace (Z.abs (residue b) <=? 8) with true by (symmetry; apply Z.leb_le; lia).
           destruct (Z.ltb_spec (residue b) 0).
           ++ replace (residue b) with (- (1)) by lia. rewrite zmul_opp. now rewrite zmul_1.
           ++ replace (residue b) with 1 by lia. now rewrite zmul_1.
        -- destruct (Z.leb_spec (Z.abs (residue b)) 8) as [S8|S8].
           ++ replace (residue b) with 0 by lia. rewrite zmul_0. reflexivity.
           ++ rewrite zmul_0. destruct (residue b <? 0); [apply pneg_0|reflexivity].
      * intros j Hj. rewrite Ab. rewrite (Z.mod_small j) by lia.
        destruct (Z.eq_dec (residue b) (-256)) as [Q|Q]; [rewrite Q; change (Z.abs (-256) mod 256) with 0; lia|]. rewrite (M Q).
        destruct (Z.leb_spec (Z.abs (residue b)) 8); lia.
    + intros D. rewrite N2; [reflexivity|].
      destruct (Z.leb_spec (Z.abs (residue b)) 8) as [S8|S8]; [|cbn in D; lia].
      exists (Z.abs (residue b)). split; [lia|]. rewrite Ab. reflexivity.
Qed.

(** ** scalarMultiply on it *)
Lemma two_digits e0 e1 d0 d1 : -8 <= e0 <= 7 -> -8 <= e1 <= 7 -> Z.abs d0 <= 1 -> Z.abs d1 <= 1 ->
  (256 | (e0 + 16 * e1) - (d0 + 16 * d1)) -> e0 = d0 /\ e1 = d1.
Proof. intros A B C D [u X]. assert (u = 0) by lia. subst u. split; lia. Qed.
Section Scalar.
Variable g : rge.
Variable rows : list (list (option gcore)).
Variable P : point.
Hypothesis Hs : r_single g = Some rows.
Hypothesis HT : half_table rows P.
(** the multiple Select gives for digit i *)
Definition share (e : list Z) (i : nat) : Z := if Nat.ltb i 2 then nth i e 0 else 0.
Lemma small_digit d : -8 <= d <= 7 -> digit d = d.
Proof.
  intros H. unfold digit, residue. rewrite Z.mod_small by lia. replace (d + 256 - 256) with d by lia.
  replace (Z.abs d <=? 8) with true by (symmetry; apply Z.leb_le; lia). reflexivity.
Qed.
Lemma step_cases e i h Q : (i < 64)%nat -> ((i < 2)%nat -> -8 <= nth i e 0 <= 7) -> repc P3 h Q ->
  (Z.abs (share e i) <= 1 -> exists h', r_sm_step g e i h = ROk h' /\ repc P3 h' (padd Q (zmul (share e i) P))) /\
  (1 < Z.abs (share e i) -> r_sm_step g e i h = RNil).
Proof.
  intros Li Hd Hh. destruct (half_select g rows P (nth i e 0) Hs HT) as (S1 & S2 & S3). unfold r_sm_step, share.
  assert (A : forall s V, repc PRECOMPUTED s V -> exists h', of_plain (do t <- g_precomputedAdd h s; to_P3 t) = ROk h' /\ repc P3 h' (padd Q V)).
  { intros s V R. destruct (g_precomputedAdd_ok _ _ _ _ Hh R) as (t & -> & T). cbn [bind].
    destruct (to_P3_P1 _ _ T) as (h' & -> & H'). exists h'. split; [reflexivity|exact H']. }
  destruct (Nat.ltb_spec i 2) as [L2|L2].
  - rewrite Nat.div_small by exact L2. change (Z.of_nat 0) with 0. specialize (Hd L2). rewrite small_digit in S2, S3 by exact Hd. split.
    + intros D. destruct (S2 D) as (s & -> & R). cbn [rbind]. exact (A _ _ R).
    + intros D. rewrite (S3 D). reflexivity.
  - split; [intros _|intros D; cbn in D; lia].
    destruct (S1 (Z.of_nat (i / 2))) as (s & -> & R).
    { pose proof (Nat.div_le_lower_bound i 2 1 ltac:(lia) ltac:(lia)). pose proof (Nat.div_lt_upper_bound i 2 32 ltac:(lia) ltac:(lia)). lia. }
    cbn [rbind]. rewrite zmul_0. exact (A _ _ R).
Qed.
Lemma loop_cases e is : (forall i, In i is -> (i < 64)%nat) -> (forall i, (i < 2)%nat -> -8 <= nth i e 0 <= 7) ->
  forall h Q, repc P3 h Q ->
  ((forall i, In i is -> Z.abs (share e i) <= 1) ->
     exists r, r_sm_loop g e is h = ROk r /\ repc P3 r (padd Q (zmul (ScalarMul.dsum (share e) is) P))) /\
  ((exists i, In i is /\ 1 < Z.abs (share e i)) -> r_sm_loop g e is h = RNil).
Proof.
  intros HI HD. induction is as [|i is IH]; intros h Q Hh; cbn [r_sm_loop ScalarMul.dsum].
  - split; [|intros (i & [] & _)]. intros _. exists h. split; [reflexivity|]. now rewrite zmul_0, padd_0_r.
  - destruct (step_cases e i h Q (HI i (or_introl eq_refl)) (HD i) Hh) as [C1 C2].
    assert (HI' : forall j, In j is -> (j < 64)%nat) by (intros; apply HI; now right).
    destruct (Z.le_gt_cases (Z.abs (share e i)) 1) as [D|D].
    + destruct (C1 D) as (h' & -> & H'). cbn [rbind]. destruct (IH HI' h' _ H') as [I1 I2]. split.
      * intros A. destruct (I1 (fun j Hj => A j (or_intror Hj))) as (r & -> & R). exists r. split; [reflexivity|].
        now rewrite zmul_add, <- padd_assoc.
      * intros (j & [<-|Hj] & Dj); [lia|]. apply I2. exists j. auto.
    + rewrite (C2 ltac:(lia)). split; [|reflexivity]. intros A. specialize (A i (or_introl eq_refl)). lia.
Qed.
Lemma dsum_zero f is : (forall i, In i is -> f i = 0) -> ScalarMul.dsum f is = 0.
Proof. induction is as [|i is IH]; intros A; [reflexivity|]. cbn [ScalarMul.dsum]. rewrite A by (left; reflexivity). rewrite IH; [reflexivity|]. intros; apply A; now right. Qed.
Lemma half_scalar a : wf_bytes a -> (32 <= length a)%nat ->
  (forall d0 d1, Z.abs d0 <= 1 -> Z.abs d1 <= 1 -> (256 | le_val (firstn 32 a) - (d0 + 16 * d1)) ->
     exists r, r_scalar_multiply g a = ROk r /\ repc P3 r (zmul (d0 + 16 * d1) P)) /\
  ((forall d0 d1, Z.abs d0 <= 1 -> Z.abs d1 <= 1 -> ~ (256 | le_val (firstn 32 a) - (d0 + 16 * d1))) -> r_scalar_multiply g a = RNil).
Proof.
  intros W L. destruct (to_radix16_ok a W L) as (e & Ee & Le & De & D1 & _ & _).
  assert (E01 : exists e0 e1 e', e = e0 :: e1 :: e') by (destruct e as [|e0 [|e1 e']]; [discriminate Le|discriminate Le|eauto]).
  destruct E01 as (e0 & e1 & e' & E01).
  assert (V : (256 | le_val (firstn 32 a) - (e0 + 16 * e1))).
  { rewrite <- De, E01. cbn [dv]. exists (dv 16 e'). ring. }
  assert (B0 : -8 <= e0 <= 7) by (specialize (D1 0%nat ltac:(lia)); rewrite E01 in D1; exact D1).
  assert (B1 : -8 <= e1 <= 7) by (specialize (D1 1%nat ltac:(lia)); rewrite E01 in D1; exact D1).
  assert (HD : forall i, (i < 2)%nat -> -8 <= nth i e 0 <= 7) by (intros; apply D1; lia).
  assert (I1 : forall i, In i (map (fun k => 2 * k + 1)%nat (seq 0 32)) -> (i < 64)%nat).
  { intros i Hi. apply in_map_iff in Hi as (k & <- & Hk). apply in_seq in Hk. lia. }
  assert (I2 : forall i, In i (map (fun k => 2 * k)%nat (seq 0 32)) -> (i < 64)%nat).
  { intros i Hi. apply in_map_iff in Hi as (k & <- & Hk). apply in_seq in Hk. lia. }
  assert (S1 : ScalarMul.dsum (share e) (map (fun k => 2 * k + 1)%nat (seq 0 32)) = e1).
  { change (seq 0 32) with (0%nat :: seq 1 31). cbn [map ScalarMul.dsum]. rewrite dsum_zero; [rewrite E01; cbn; lia|].
    intros i Hi. apply in_map_iff in Hi as (k & <- & Hk). apply in_seq in Hk. unfold share. destruct (Nat.ltb_spec (2 * k + 1) 2); [lia|reflexivity]. }
  assert (S0 : ScalarMul.dsum (share e) (map (fun k => 2 * k)%nat (seq 0 32)) = e0).
  { change (seq 0 32) with (0%nat :: seq 1 31). cbn [map ScalarMul.dsum]. rewrite dsum_zero; [rewrite E01; cbn; lia|].
    intros i Hi. apply in_map_iff in Hi as (k & <- & Hk). apply in_seq in Hk. unfold share. destruct (Nat.ltb_spec (2 * k) 2); [lia|reflexivity]. }
  assert (U1 : forall i, In i (map (fun k => 2 * k + 1)%nat (seq 0 32)) -> share e i = if Nat.eqb i 1 then e1 else 0).
  { intros i Hi. apply in_map_iff in Hi as (k & <- & Hk). unfold share. destruct (Nat.ltb_spec (2 * k + 1) 2).
    - replace k with 0%nat by lia. rewrite E01. reflexivity.
    - destruct (Nat.eqb_spec (2 * k + 1) 1); [lia|reflexivity]. }
  assert (U0 : forall i, In i (map (fun k => 2 * k)%nat (seq 0 32)) -> share e i = if Nat.eqb i 0 then e0 else 0).
  { intros i Hi. apply in_map_iff in Hi as (k & <- & Hk). unfold share. destruct (Nat.ltb_spec (2 * k) 2).
    - replace k with 0%nat by lia. rewrite E01. reflexivity.
    - destruct (Nat.eqb_spec (2 * k) 0); [lia|reflexivity]. }
  unfold r_scalar_multiply. rewrite Ee. cbn [of_plain rbind].
  destruct (loop_cases e _ I1 HD zero_P3 pzero zero_P3_rep) as [K1 K2]. rewrite S1, padd_0_l in K1.
  assert (Good : Z.abs e0 <= 1 -> Z.abs e1 <= 1 ->
    exists r, rbind (r_sm_loop g e (map (fun k => 2 * k + 1)%nat (seq 0 32)) zero_P3) (fun h =>
      rbind (of_plain (do d1 <- g_dbl h; do h1 <- to_P2 d1; do d2 <- g_dbl h1; do h2 <- to_P2 d2;
                       do d3 <- g_dbl h2; do h3 <- to_P2 d3; do d4 <- g_dbl h3; to_P3 d4)) (fun h4 =>
      r_sm_loop g e (map (fun k => 2 * k)%nat (seq 0 32)) h4)) = ROk r /\ repc P3 r (zmul (e0 + 16 * e1) P)).
  { intros A0 A1. destruct K1 as (h & -> & H).
    { intros i Hi. rewrite (U1 i Hi). destruct (Nat.eqb i 1); cbn; lia. }
    cbn [rbind].
    destruct (g_dbl_P3 _ _ H) as (d1 & -> & H1). cbn [bind]. destruct (to_P2_P1 _ _ H1) as (h1 & -> & G1). cbn [bind].
    destruct (g_dbl_P2 _ _ G1) as (d2 & -> & H2). cbn [bind]. destruct (to_P2_P1 _ _ H2) as (h2 & -> & G2). cbn [bind].
    destruct (g_dbl_P2 _ _ G2) as (d3 & -> & H3). cbn [bind]. destruct (to_P2_P1 _ _ H3) as (h3 & -> & G3). cbn [bind].
    destruct (g_dbl_P2 _ _ G3) as (d4 & -> & H4). cbn [bind]. destruct (to_P3_P1 _ _ H4) as (h4 & -> & G4). cbn [bind of_plain rbind].
    rewrite <- !zmul_2, <- !zmul_mul in G4.
    destruct (loop_cases e _ I2 HD h4 _ G4) as [M1 _]. rewrite S0, <- zmul_add in M1.
    destruct M1 as (r & -> & R); [intros i Hi; rewrite (U0 i Hi); destruct (Nat.eqb i 0); cbn; lia|].
    exists r. split; [reflexivity|]. match type of R with repc P3 r (zmul ?u P) => replace (e0 + 16 * e1) with u by ring end. exact R. }
  split.
  - intros d0 d1 A0 A1 D. assert (X : (256 | (e0 + 16 * e1) - (d0 + 16 * d1))).
    { destruct V as [u V]. destruct D as [v D]. exists (v - u). lia. }
    destruct (two_digits e0 e1 d0 d1 B0 B1 A0 A1 X) as [-> ->]. exact (Good A0 A1).
  - intros N. assert (Bad : 1 < Z.abs e1 \/ (Z.abs e1 <= 1 /\ 1 < Z.abs e0)).
    { destruct (Z.le_gt_cases (Z.abs e1) 1); [|left; lia]. right. split; [assumption|].
      destruct (Z.le_gt_cases (Z.abs e0) 1) as [Z0|]; [|lia]. exfalso. exact (N e0 e1 Z0 ltac:(lia) V). }
    destruct Bad as [A1|[A1 A0]].
    + rewrite K2; [reflexivity|]. exists 1%nat. split; [apply in_map_iff; exists 0%nat; split; [reflexivity|apply in_seq; lia]|].
      rewrite U1 by (apply in_map_iff; exists 0%nat; split; [reflexivity|apply in_seq; lia]). exact A1.
    + destruct K1 as (h & -> & H).
      { intros i Hi. rewrite (U1 i Hi). destruct (Nat.eqb i 1); cbn; lia. }
      cbn [rbind].
      destruct (g_dbl_P3 _ _ H) as (d1 & -> & H1). cbn [bind]. destruct (to_P2_P1 _ _ H1) as (h1 & -> & G1). cbn [bind].
      destruct (g_dbl_P2 _ _ G1) as (d2 & -> & H2). cbn [bind]. destruct (to_P2_P1 _ _ H2) as (h2 & -> & G2). cbn [bind].
      destruct (g_dbl_P2 _ _ G2) as (d3 & -> & H3). cbn [bind]. destruct (to_P2_P1 _ _ H3) as (h3 & -> & G3). cbn [bind].
      destruct (g_dbl_P2 _ _ G3) as (d4 & -> & H4). cbn [bind]. destruct (to_P3_P1 _ _ H4) as (h4 & -> & G4). cbn [bind of_plain rbind].
      destruct (loop_cases e _ I2 HD h4 _ G4) as [_ M2]. apply M2.
      exists 0%nat. split; [apply in_map_iff; exists 0%nat; split; [reflexivity|apply in_seq; lia]|].
      rewrite U0 by (apply in_map_iff; exists 0%nat; split; [reflexivity|apply in_seq; lia]). exact A0.
Qed.
End Scalar.

(** ** doubleScalarMultiplyVariableTime: right or a panic *)
(** entries agree where there are any *)
Definition agrees (t : list (option gcore)) (l : list gcore) : Prop :=
  length t = length l /\ forall i e, nth_error t i = Some (Some e) -> nth_error l i = Some e.
Lemma tab_cases t l i : agrees t l ->
  (r_tab_at (Some t) i = Panic) \/ (r_tab_at (Some t) i = Ok None) \/
  exists e, r_tab_at (Some t) i = Ok (Some e) /\ tab_at (Some l) i = Ok e.
Proof.
  intros [L A]. unfold r_tab_at, tab_at. destruct (i <? 0); [left; reflexivity|].
  destruct (nth_error t (Z.to_nat i)) as [[e|]|] eqn:N; [right; right|right; left; reflexivity|left; reflexivity].
  exists e. split; [reflexivity|]. now rewrite (A _ _ N).
Qed.
Lemma to_P3_cs t t3 : to_P3 t = Ok t3 -> g_cs t3 = P3.
Proof.
  unfold to_P3, to_cs. destruct t as [c X Y Z T]. cbn. destruct c, T; intros E; try discriminate E; injection E as <-; reflexivity.
Qed.
Lemma or_panic_bind {A B} (x y : res A) (f h : A -> res B) : (x = Panic \/ x = y) -> (forall a, x = Ok a -> f a = Panic \/ f a = h a) ->
  bind x f = Panic \/ bind x f = bind y h.
Proof.
  intros [->|<-] K; [left; reflexivity|]. destruct x as [a|e|]; cbn [bind]; [apply K; reflexivity|right; reflexivity|left; reflexivity].
Qed.
Section Dsm.
Variables (B A : rge) (B' A' : ge) (tB tA : list (option gcore)) (lB lA : list gcore).
Hypothesis EB : r_double B = Some tB. Hypothesis EA : r_double A = Some tA.
Hypothesis EB' : double B' = Some lB. Hypothesis EA' : double A' = Some lA.
Hypothesis GB : agrees tB lB. Hypothesis GA : agrees tA lA.
Lemma entry_add t l i t3 : agrees t l -> g_cs t3 = P3 ->
  (do e <- r_tab_at (Some t) i; r_prec_add t3 e) = Panic \/ (do e <- r_tab_at (Some t) i; r_prec_add t3 e) = (do e <- tab_at (Some l) i; g_precomputedAdd t3 e).
Proof.
  intros G C. destruct (tab_cases t l i G) as [->|[->|(e & -> & ->)]]; cbn [bind]; [left; reflexivity| |right; reflexivity].
  left. unfold r_prec_add. rewrite C. reflexivity.
Qed.
Lemma entry_sub t l i t3 : agrees t l ->
  (do e <- r_tab_at (Some t) i; r_prec_sub t3 e) = Panic \/ (do e <- r_tab_at (Some t) i; r_prec_sub t3 e) = (do e <- tab_at (Some l) i; g_precomputedSubtract t3 e).
Proof.
  intros G. destruct (tab_cases t l i G) as [->|[->|(e & -> & ->)]]; cbn [bind]; [left; reflexivity|left; reflexivity|right; reflexivity].
Qed.
Lemma dsm_step_same ai bi r : r_dsm_step B A ai bi r = Panic \/ r_dsm_step B A ai bi r = dsm_step B' A' ai bi r.
Proof.
  unfold r_dsm_step, dsm_step. rewrite EB, EA, EB', EA'.
  apply or_panic_bind; [right; reflexivity|]. intros t _.
  apply or_panic_bind.
  { destruct (0 <? ai); [|destruct (ai <? 0); [|right; reflexivity]]; (apply or_panic_bind; [right; reflexivity|]; intros t3 E).
    - exact (entry_sub _ _ _ t3 GA).
    - exact (entry_add _ _ _ t3 GA (to_P3_cs _ _ E)). }
  intros t' _. apply or_panic_bind; [|intros; right; reflexivity].
  destruct (0 <? bi); [|destruct (bi <? 0); [|right; reflexivity]]; (apply or_panic_bind; [right; reflexivity|]; intros t3 E).
  - exact (entry_add _ _ _ t3 GB (to_P3_cs _ _ E)).
  - exact (entry_sub _ _ _ t3 GB).
Qed.
Lemma dsm_loop_same ds : forall flag r, r_dsm_loop B A ds flag r = Panic \/ r_dsm_loop B A ds flag r = dsm_loop B' A' ds flag r.
Proof.
  induction ds as [|[ai bi] ds IH]; intros flag r; cbn [r_dsm_loop dsm_loop]; [right; reflexivity|].
  apply or_panic_bind; [|intros; apply IH]. destruct (flag || negb (ai =? 0) || negb (bi =? 0)); [apply dsm_step_same|right; reflexivity].
Qed.
Lemma dsm_same a b : r_double_scalar_multiply B A a b = Panic \/ r_double_scalar_multiply B A a b = g_doubleScalarMultiply B' A' a b.
Proof.
  unfold r_double_scalar_multiply, g_doubleScalarMultiply. apply or_panic_bind; [right; reflexivity|]. intros sa _.
  apply or_panic_bind; [right; reflexivity|]. intros sb _. apply dsm_loop_same.
Qed.
End Dsm.
Lemma agrees_full l : agrees (map Some l) l.
Proof.
  split; [apply map_length|]. intros i e. rewrite nth_error_map. destruct (nth_error l i); cbn [option_map]; intros X; [injection X as ->; reflexivity|discriminate X].
Qed.
(** every point has a table *)
Lemma table_exists P : exists l, double_table l P.
Proof.
  destruct (every_point P) as (_ & (c & Hc) & _). destruct (state_step c P Hc) as (_ & l & _ & T & _). exists l. exact T.
Qed.
Fixpoint complete (t : list (option gcore)) (l : list gcore) : list gcore :=
  match t, l with
  | Some e :: t', _ :: l' => e :: complete t' l'
  | None :: t', x :: l' => x :: complete t' l'
  | _, _ => []
  end.
Lemma complete_nth t : forall l, length t = length l -> length (complete t l) = length l /\
  forall j, nth_error (complete t l) j = match nth_error t j with Some (Some e) => Some e | Some None => nth_error l j | None => None end.
Proof.
  induction t as [|o t IH]; intros [|x l] L; try discriminate L.
  - split; [reflexivity|]. intros [|j]; reflexivity.
  - cbn [length] in L. destruct (IH l ltac:(lia)) as [I1 I2].
    destruct o as [e|]; cbn [complete length]; (split; [now rewrite I1|]); (intros [|j]; [reflexivity|]); cbn [nth_error]; apply I2.
Qed.
Lemma completed t P : partial_double t P -> exists l, double_table l P /\ agrees t l.
Proof.
  intros [Lt Ht]. destruct (table_exists P) as (l & Ll & Hl). exists (complete t l).
  destruct (complete_nth t l) as [C1 C2]; [congruence|]. split; [split; [congruence|]|split; [congruence|]].
  - intros j e E. rewrite C2 in E. destruct (nth_error t j) as [[x|]|] eqn:N; [|exact (Hl _ _ E)|discriminate E].
    injection E as <-. exact (Ht _ _ N).
  - intros j e N. rewrite C2, N. reflexivity.
Qed.
Lemma half_partial e P : repc PRECOMPUTED e P -> partial_double (Some e :: repeat None 7) P.
Proof.
  intros H. split; [reflexivity|]. intros [|j] x N.
  - injection N as <-. change (2 * Z.of_nat 0 + 1) with 1. now rewrite zmul_1.
  - cbn [nth_error] in N. apply nth_error_In in N. apply repeat_spec in N. discriminate N.
Qed.
Lemma right_or_panic B A tB tA PB PA : r_double B = Some tB -> r_double A = Some tA -> partial_double tB PB -> partial_double tA PA ->
  forall a b, wf_bytes a -> length a = 32%nat -> le_val a <= 2 ^ 255 -> wf_bytes b -> length b = 32%nat -> le_val b <= 2 ^ 255 ->
  r_double_scalar_multiply B A a b = Panic \/
  exists r, r_double_scalar_multiply B A a b = Ok r /\ repc P2 r (psub (zmul (le_val b) PB) (zmul (le_val a) PA)).
Proof.
  intros EB EA HB HA a b Wa La Va Wb Lb Vb. destruct (completed tB PB HB) as (lB & TB & GB). destruct (completed tA PA HA) as (lA & TA & GA).
  pose (B' := Ge zero_P3 None (Some lB)). pose (A' := Ge zero_P3 None (Some lA)).
  destruct (dsm_same B A B' A' tB tA lB lA EB EA eq_refl eq_refl GB GA a b) as [E|E]; [left; exact E|right].
  destruct (g_doubleScalarMultiply_ok B' A' lB lA PB PA a b eq_refl eq_refl TB TA Wa) as (r & Er & R);
    rewrite ?firstn_all2 by lia; try assumption; try lia.
  rewrite !firstn_all2 in R by lia. exists r. split; [congruence|exact R].
Qed.
(** an element in P2 coordinates *)
Lemma after_panic c P : repc P2 c P -> forall cs, In PSingle cs -> In PDouble cs ->
  exists rows t, r_single (fst (r_run (r_new c) cs)) = Some rows /\ half_table rows P /\
    r_double (fst (r_run (r_new c) cs)) = Some t /\ partial_double t P.
Proof.
  intros H cs I1 I2. assert (N : g_cs c <> P3 \/ gT c = None) by (left; destruct H as [-> _]; discriminate).
  destruct (half_history c N cs) as (g & ps & -> & _ & S1 & _ & D1 & _). cbn [fst].
  eexists. eexists. split; [exact (S1 I1)|]. split; [exists (prec_entry c); split; [apply prec_entry_P2, H|reflexivity]|].
  split; [exact (D1 I2)|]. apply half_partial, prec_entry_P2, H.
Qed.
(** Select and scalarMultiply can be wrong then *)
Lemma wrong_select : ~ (forall c P cs pos b r, repc P2 c P -> 0 <= pos < 32 -> -8 <= b <= 8 ->
  r_select (fst (r_run (r_new c) cs)) pos b = ROk r -> repc PRECOMPUTED r (zmul (b * 256 ^ pos) P)).
Proof.
  intros K. destruct (every_point Bpt) as ((c & Hc) & _).
  destruct (after_panic c Bpt Hc [PSingle; PDouble]) as (rows & t & Er & Hr & _); [left; reflexivity|right; left; reflexivity|].
  destruct (half_select _ rows Bpt 1 Er Hr) as (S1 & _). destruct (S1 1 ltac:(lia)) as (r & E & R).
  pose proof (K c Bpt [PSingle; PDouble] 1 1 r Hc ltac:(lia) ltac:(lia) E) as R'.
  assert (X : zmul (1 * 256 ^ 1) Bpt = zmul 0 Bpt).
  { rewrite zmul_0. apply (rep_unique r); [rewrite (proj1 R); discriminate|exact (proj2 R')|exact (proj2 R)]. }
  apply zmul_B_inj in X. vm_compute in X. discriminate X.
Qed.
Lemma wrong_scalar : ~ (forall c P cs a r, repc P2 c P -> wf_bytes a -> length a = 32%nat -> le_val a < 2 ^ 255 ->
  r_scalar_multiply (fst (r_run (r_new c) cs)) a = ROk r -> repc P3 r (zmul (le_val a) P)).
Proof.
  intros K. destruct (every_point Bpt) as ((c & Hc) & _).
  destruct (after_panic c Bpt Hc [PSingle; PDouble]) as (rows & t & Er & Hr & _); [left; reflexivity|right; left; reflexivity|].
  assert (W : wf_bytes (le_bytes 32 256)) by apply le_bytes_wf. assert (L : length (le_bytes 32 256) = 32%nat) by apply le_bytes_length.
  assert (V : le_val (le_bytes 32 256) = 256) by (vm_compute; reflexivity).
  destruct (half_scalar _ rows Bpt Er Hr (le_bytes 32 256) W ltac:(lia)) as [S1 _].
  rewrite firstn_all2 in S1 by lia. rewrite V in S1. destruct (S1 0 0 ltac:(lia) ltac:(lia)) as (r & E & R); [exists 1; reflexivity|].
  pose proof (K c Bpt [PSingle; PDouble] _ r Hc W L ltac:(rewrite V; reflexivity) E) as R'. rewrite V in R'.
  assert (X : zmul 256 Bpt = zmul (0 + 16 * 0) Bpt).
  { apply (rep_unique r); [rewrite (proj1 R); discriminate|exact (proj2 R')|exact (proj2 R)]. }
  apply zmul_B_inj in X. vm_compute in X. discriminate X.
Qed.
Lemma ex_recover : exists c, repc P2 c Bpt /\ (g_cs c <> P3 \/ gT c = None) /\ snd (r_run (r_new c) [PSingle; PDouble; PSingle]) = [true; true; false].
Proof.
  destruct (every_point Bpt) as ((c & Hc) & _). exists c. assert (N : g_cs c <> P3 \/ gT c = None) by (left; destruct Hc as [-> _]; discriminate).
  split; [exact Hc|]. split; [exact N|]. change (r_new c) with (rstate c false false).
  cbn [r_run]. rewrite !half_step by exact N. reflexivity.
Qed.
