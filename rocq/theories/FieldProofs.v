(** Correctness of the limb arithmetic modulo p. *)
From Coq Require Import List ZArith Lia Bool.
From Coq Require Import FMapPositive.
From Verif Require Import GoBase Slp Progs FieldModel FieldSpec.
Import ListNotations.
Open Scope Z_scope.

(** Versions of the operations without wrap-around, to say that nothing overflows. *)
Definition fe_mulZ (f g : fe) : fe := read_h (runZ mul_prog (mk_env (load_f f ++ load_g g))).
Definition fe_sqoptZ (dbl : bool) (f : fe) : fe :=
  read_h (runZ (sq_pre_prog ++ (if dbl then sq_dbl_prog else []) ++ sq_post_prog)
                (mk_env (load_f f))).

Definition ev : Z -> itv := fun k => let b := k * 2^25 / 100 in (- b, b).
Definition od : Z -> itv := fun k => let b := k * 2^24 / 100 in (- b, b).
Definition f_itv (k : Z) : list (positive * itv) :=
  [(v_f0, ev k); (v_f1, od k); (v_f2, ev k); (v_f3, od k); (v_f4, ev k);
   (v_f5, od k); (v_f6, ev k); (v_f7, od k); (v_f8, ev k); (v_f9, od k)].
Definition g_itv (k : Z) : list (positive * itv) :=
  [(v_g0, ev k); (v_g1, od k); (v_g2, ev k); (v_g3, od k); (v_g4, ev k);
   (v_g5, od k); (v_g6, ev k); (v_g7, od k); (v_g8, ev k); (v_g9, od k)].
Definition h_itv (k : Z) : list (positive * itv) :=
  [(v_h0, ev k); (v_h1, od k); (v_h2, ev k); (v_h3, od k); (v_h4, ev k);
   (v_h5, od k); (v_h6, ev k); (v_h7, od k); (v_h8, ev k); (v_h9, od k)].

Lemma ev_in k x : 100 * Z.abs x <= k * 2^25 -> in_itv x (ev k).
Proof.
  intros H. unfold in_itv, ev; cbn [fst snd].
  assert (Z.abs x <= k * 2^25 / 100) by (apply Z.div_le_lower_bound; lia). lia.
Qed.
Lemma od_in k x : 100 * Z.abs x <= k * 2^24 -> in_itv x (od k).
Proof.
  intros H. unfold in_itv, od; cbn [fst snd].
  assert (Z.abs x <= k * 2^24 / 100) by (apply Z.div_le_lower_bound; lia). lia.
Qed.
Lemma in_ev k x : in_itv x (ev k) -> 100 * Z.abs x <= k * 2^25.
Proof.
  unfold in_itv, ev; cbn [fst snd]. intros H.
  pose proof (Z.mul_div_le (k * 2^25) 100 ltac:(lia)). lia.
Qed.
Lemma in_od k x : in_itv x (od k) -> 100 * Z.abs x <= k * 2^24.
Proof.
  unfold in_itv, od; cbn [fst snd]. intros H.
  pose proof (Z.mul_div_le (k * 2^24) 100 ltac:(lia)). lia.
Qed.

Ltac all_in H :=
  repeat (destruct H as [H|H]; [injection H as <- <-|]); try destruct H.

Lemma bnd_f_itv k f r : bnd k f ->
  forall x i, In (x, i) (f_itv k) -> in_itv (get (mk_env (load_f f ++ load_g r)) x) i.
Proof.
  intros (H0&H1&H2&H3&H4&H5&H6&H7&H8&H9) x i Hin. cbn [f_itv In] in Hin.
  all_in Hin; first [apply ev_in; assumption | apply od_in; assumption].
Qed.
Lemma bnd_g_itv k f r : bnd k f ->
  forall x i, In (x, i) (g_itv k) -> in_itv (get (mk_env (load_f r ++ load_g f)) x) i.
Proof.
  intros (H0&H1&H2&H3&H4&H5&H6&H7&H8&H9) x i Hin. cbn [g_itv In] in Hin.
  all_in Hin; first [apply ev_in; assumption | apply od_in; assumption].
Qed.
Lemma bnd_f1_itv k f : bnd k f ->
  forall x i, In (x, i) (f_itv k) -> in_itv (get (mk_env (load_f f)) x) i.
Proof.
  intros (H0&H1&H2&H3&H4&H5&H6&H7&H8&H9) x i Hin. cbn [f_itv In] in Hin.
  all_in Hin; first [apply ev_in; assumption | apply od_in; assumption].
Qed.
Lemma h_itv_bnd k m :
  (forall x i, In (x, i) (h_itv k) -> in_itv (get m x) i) -> bnd k (read_h m).
Proof.
  intros H. unfold bnd, read_h; cbn [r0 r1 r2 r3 r4 r5 r6 r7 r8 r9].
  repeat split; first [apply in_ev | apply in_od]; apply H; cbn [h_itv In]; intuition.
Qed.

Definition wts : list Z := [1; 2^26; 2^51; 2^77; 2^102; 2^128; 2^153; 2^179; 2^204; 2^230].
Definition lin (xs : list positive) : poly := combine (map (fun x => [x]) xs) wts.
Definition fs := [v_f0; v_f1; v_f2; v_f3; v_f4; v_f5; v_f6; v_f7; v_f8; v_f9].
Definition gs := [v_g0; v_g1; v_g2; v_g3; v_g4; v_g5; v_g6; v_g7; v_g8; v_g9].
Definition hs := [v_h0; v_h1; v_h2; v_h3; v_h4; v_h5; v_h6; v_h7; v_h8; v_h9].

Lemma lin_h m : poly_val m (lin hs) = feval (read_h m).
Proof.
  unfold lin, hs, wts, feval, read_h. cbn [map combine poly_val mono_val r0 r1 r2 r3 r4 r5 r6 r7 r8 r9].
  ring.
Qed.
Lemma lin_f f : poly_val (mk_env (load_f f)) (lin fs) = feval f.
Proof.
  unfold lin, fs, wts, feval. cbn [map combine poly_val mono_val].
  change (get (mk_env (load_f f)) v_f0) with (r0 f). change (get (mk_env (load_f f)) v_f1) with (r1 f).
  change (get (mk_env (load_f f)) v_f2) with (r2 f). change (get (mk_env (load_f f)) v_f3) with (r3 f).
  change (get (mk_env (load_f f)) v_f4) with (r4 f). change (get (mk_env (load_f f)) v_f5) with (r5 f).
  change (get (mk_env (load_f f)) v_f6) with (r6 f). change (get (mk_env (load_f f)) v_f7) with (r7 f).
  change (get (mk_env (load_f f)) v_f8) with (r8 f). change (get (mk_env (load_f f)) v_f9) with (r9 f).
  ring.
Qed.
Lemma lin_fg_f f g : poly_val (mk_env (load_f f ++ load_g g)) (lin fs) = feval f.
Proof.
  unfold lin, fs, wts, feval. cbn [map combine poly_val mono_val].
  set (m := mk_env _).
  change (get m v_f0) with (r0 f). change (get m v_f1) with (r1 f).
  change (get m v_f2) with (r2 f). change (get m v_f3) with (r3 f).
  change (get m v_f4) with (r4 f). change (get m v_f5) with (r5 f).
  change (get m v_f6) with (r6 f). change (get m v_f7) with (r7 f).
  change (get m v_f8) with (r8 f). change (get m v_f9) with (r9 f).
  ring.
Qed.
Lemma lin_fg_g f g : poly_val (mk_env (load_f f ++ load_g g)) (lin gs) = feval g.
Proof.
  unfold lin, gs, wts, feval. cbn [map combine poly_val mono_val].
  set (m := mk_env _).
  change (get m v_g0) with (r0 g). change (get m v_g1) with (r1 g).
  change (get m v_g2) with (r2 g). change (get m v_g3) with (r3 g).
  change (get m v_g4) with (r4 g). change (get m v_g5) with (r5 g).
  change (get m v_g6) with (r6 g). change (get m v_g7) with (r7 g).
  change (get m v_g8) with (r8 g). change (get m v_g9) with (r9 g).
  ring.
Qed.

Lemma cong_eqp a b : cong p25519 a b -> eqp a b.
Proof. exact (fun H => H). Qed.

(** ** multiply *)
Lemma mul_check_itv : check_itv mul_prog (f_itv 330 ++ g_itv 330) (h_itv 101) = true.
Proof. vm_compute. reflexivity. Qed.
Lemma mul_check_poly :
  check_poly p25519 mul_prog (lin hs) (pmul p25519 (lin fs) (lin gs)) = true.
Proof. vm_compute. reflexivity. Qed.

Theorem fe_mul_ok f g : bnd 330 f -> bnd 330 g ->
  fe_mul f g = fe_mulZ f g /\ eqp (feval (fe_mul f g)) (feval f * feval g) /\ bnd 101 (fe_mul f g).
Proof.
  intros Hf Hg. unfold fe_mul, fe_mulZ. set (m := mk_env _).
  destruct (check_itv_sound _ _ _ m mul_check_itv) as [E B].
  { intros x i Hin. apply in_app_or in Hin as [Hin|Hin].
    - eapply bnd_f_itv; eassumption. - eapply bnd_g_itv; eassumption. }
  rewrite E. split; [reflexivity|]. split; [|apply h_itv_bnd, B].
  pose proof (check_poly_sound _ _ _ _ m mul_check_poly) as P.
  rewrite lin_h in P. apply cong_eqp.
  eapply cong_trans; [exact P|]. eapply cong_trans; [apply pmul_val|].
  unfold m. rewrite lin_fg_f, lin_fg_g. apply cong_refl.
Qed.

(** ** squareAndOptionalDouble *)
Lemma sq_check_itv : check_itv (sq_pre_prog ++ [] ++ sq_post_prog) (f_itv 330) (h_itv 101) = true.
Proof. vm_compute. reflexivity. Qed.
Lemma sq2_check_itv : check_itv (sq_pre_prog ++ sq_dbl_prog ++ sq_post_prog) (f_itv 330) (h_itv 101) = true.
Proof. vm_compute. reflexivity. Qed.
Lemma sq_check_poly :
  check_poly p25519 (sq_pre_prog ++ [] ++ sq_post_prog) (lin hs) (pmul p25519 (lin fs) (lin fs)) = true.
Proof. vm_compute. reflexivity. Qed.
Lemma sq2_check_poly :
  check_poly p25519 (sq_pre_prog ++ sq_dbl_prog ++ sq_post_prog) (lin hs)
    (paddmul p25519 2 [] (pmul p25519 (lin fs) (lin fs)) []) = true.
Proof. vm_compute. reflexivity. Qed.

Theorem fe_sqopt_ok dbl f : bnd 330 f ->
  fe_sqopt dbl f = fe_sqoptZ dbl f /\
  eqp (feval (fe_sqopt dbl f)) ((if dbl then 2 else 1) * (feval f * feval f)) /\
  bnd 101 (fe_sqopt dbl f).
Proof.
  intros Hf. unfold fe_sqopt, fe_sqoptZ. set (m := mk_env _).
  set (pr := sq_pre_prog ++ (if dbl then sq_dbl_prog else []) ++ sq_post_prog).
  assert (CI : check_itv pr (f_itv 330) (h_itv 101) = true)
    by (unfold pr; destruct dbl; [exact sq2_check_itv|exact sq_check_itv]).
  destruct (check_itv_sound _ _ _ m CI (bnd_f1_itv _ _ Hf)) as [E B].
  rewrite E. split; [reflexivity|]. split; [|apply h_itv_bnd, B].
  apply cong_eqp.
  rewrite <- lin_h. unfold pr. destruct dbl.
  - eapply cong_trans; [apply (check_poly_sound _ _ _ _ m sq2_check_poly)|].
    eapply cong_trans; [apply paddmul_val|]. cbn [mono_val poly_val].
    replace (2 * (feval f * feval f)) with (2 * 1 * (feval f * feval f) + 0) by ring.
    apply cong_add; [|apply cong_refl]. apply cong_mul; [apply cong_refl|].
    eapply cong_trans; [apply pmul_val|]. unfold m. rewrite lin_f. apply cong_refl.
  - eapply cong_trans; [apply (check_poly_sound _ _ _ _ m sq_check_poly)|].
    rewrite Z.mul_1_l.
    eapply cong_trans; [apply pmul_val|]. unfold m. rewrite lin_f. apply cong_refl.
Qed.

(** ** add, subtract, negate *)
Definition fe_addZ := map2_fe Z.add.
Definition fe_subZ := map2_fe Z.sub.
Definition fe_negZ (f : fe) := map2_fe (fun a _ => - a) f f.

Section Limb.
Variables (B j k x y : Z).
Hypothesis HB : 0 < B <= 2^25.
Hypothesis Hx : 100 * Z.abs x <= j * B.
Hypothesis Hy : 100 * Z.abs y <= k * B.
Hypothesis Hj : j <= 1000000.
Hypothesis Hk : k <= 1000000.
Lemma limb_abs : Z.abs x < 2^61 /\ Z.abs y < 2^61.
Proof. split; nia. Qed.
Lemma limb_add : w64 (x + y) = x + y /\ 100 * Z.abs (x + y) <= (j + k) * B.
Proof. pose proof limb_abs. split; [apply w64_id; unfold in64; lia|lia]. Qed.
Lemma limb_sub : w64 (x - y) = x - y /\ 100 * Z.abs (x - y) <= (j + k) * B.
Proof. pose proof limb_abs. split; [apply w64_id; unfold in64; lia|lia]. Qed.
Lemma limb_neg : w64 (- x) = - x /\ 100 * Z.abs (- x) <= j * B.
Proof. pose proof limb_abs. split; [apply w64_id; unfold in64; lia|lia]. Qed.
End Limb.

Theorem fe_add_ok j k f g : bnd j f -> bnd k g -> j <= 1000000 -> k <= 1000000 ->
  fe_add f g = fe_addZ f g /\ feval (fe_add f g) = feval f + feval g /\ bnd (j + k) (fe_add f g).
Proof.
  intros (F0&F1&F2&F3&F4&F5&F6&F7&F8&F9) (G0&G1&G2&G3&G4&G5&G6&G7&G8&G9) Hj Hk.
  assert (HB5 : 0 < 2^25 <= 2^25) by lia. assert (HB4 : 0 < 2^24 <= 2^25) by lia.
  pose proof (limb_add _ _ _ _ _ HB5 F0 G0 Hj Hk) as [E0 B0].
  pose proof (limb_add _ _ _ _ _ HB4 F1 G1 Hj Hk) as [E1 B1].
  pose proof (limb_add _ _ _ _ _ HB5 F2 G2 Hj Hk) as [E2 B2].
  pose proof (limb_add _ _ _ _ _ HB4 F3 G3 Hj Hk) as [E3 B3].
  pose proof (limb_add _ _ _ _ _ HB5 F4 G4 Hj Hk) as [E4 B4].
  pose proof (limb_add _ _ _ _ _ HB4 F5 G5 Hj Hk) as [E5 B5].
  pose proof (limb_add _ _ _ _ _ HB5 F6 G6 Hj Hk) as [E6 B6].
  pose proof (limb_add _ _ _ _ _ HB4 F7 G7 Hj Hk) as [E7 B7].
  pose proof (limb_add _ _ _ _ _ HB5 F8 G8 Hj Hk) as [E8 B8].
  pose proof (limb_add _ _ _ _ _ HB4 F9 G9 Hj Hk) as [E9 B9].
  assert (E : fe_add f g = fe_addZ f g).
  { unfold fe_add, fe_addZ, map2_fe. cbv beta. rewrite E0,E1,E2,E3,E4,E5,E6,E7,E8,E9. reflexivity. }
  split; [exact E|]. rewrite E.
  unfold fe_addZ, map2_fe, feval, bnd; cbn [r0 r1 r2 r3 r4 r5 r6 r7 r8 r9].
  split; [ring|]. repeat split; assumption.
Qed.
Theorem fe_sub_ok j k f g : bnd j f -> bnd k g -> j <= 1000000 -> k <= 1000000 ->
  fe_sub f g = fe_subZ f g /\ feval (fe_sub f g) = feval f - feval g /\ bnd (j + k) (fe_sub f g).
Proof.
  intros (F0&F1&F2&F3&F4&F5&F6&F7&F8&F9) (G0&G1&G2&G3&G4&G5&G6&G7&G8&G9) Hj Hk.
  assert (HB5 : 0 < 2^25 <= 2^25) by lia. assert (HB4 : 0 < 2^24 <= 2^25) by lia.
  pose proof (limb_sub _ _ _ _ _ HB5 F0 G0 Hj Hk) as [E0 B0].
  pose proof (limb_sub _ _ _ _ _ HB4 F1 G1 Hj Hk) as [E1 B1].
  pose proof (limb_sub _ _ _ _ _ HB5 F2 G2 Hj Hk) as [E2 B2].
  pose proof (limb_sub _ _ _ _ _ HB4 F3 G3 Hj Hk) as [E3 B3].
  pose proof (limb_sub _ _ _ _ _ HB5 F4 G4 Hj Hk) as [E4 B4].
  pose proof (limb_sub _ _ _ _ _ HB4 F5 G5 Hj Hk) as [E5 B5].
  pose proof (limb_sub _ _ _ _ _ HB5 F6 G6 Hj Hk) as [E6 B6].
  pose proof (limb_sub _ _ _ _ _ HB4 F7 G7 Hj Hk) as [E7 B7].
  pose proof (limb_sub _ _ _ _ _ HB5 F8 G8 Hj Hk) as [E8 B8].
  pose proof (limb_sub _ _ _ _ _ HB4 F9 G9 Hj Hk) as [E9 B9].
  assert (E : fe_sub f g = fe_subZ f g).
  { unfold fe_sub, fe_subZ, map2_fe. cbv beta. rewrite E0,E1,E2,E3,E4,E5,E6,E7,E8,E9. reflexivity. }
  split; [exact E|]. rewrite E.
  unfold fe_subZ, map2_fe, feval, bnd; cbn [r0 r1 r2 r3 r4 r5 r6 r7 r8 r9].
  split; [ring|]. repeat split; assumption.
Qed.
Theorem fe_neg_ok j f : bnd j f -> j <= 1000000 ->
  fe_neg f = fe_negZ f /\ feval (fe_neg f) = - feval f /\ bnd j (fe_neg f).
Proof.
  intros (F0&F1&F2&F3&F4&F5&F6&F7&F8&F9) Hj.
  assert (HB5 : 0 < 2^25 <= 2^25) by lia. assert (HB4 : 0 < 2^24 <= 2^25) by lia.
  pose proof (limb_neg _ _ _ _ _ HB5 F0 F0 Hj Hj) as [E0 B0].
  pose proof (limb_neg _ _ _ _ _ HB4 F1 F1 Hj Hj) as [E1 B1].
  pose proof (limb_neg _ _ _ _ _ HB5 F2 F2 Hj Hj) as [E2 B2].
  pose proof (limb_neg _ _ _ _ _ HB4 F3 F3 Hj Hj) as [E3 B3].
  pose proof (limb_neg _ _ _ _ _ HB5 F4 F4 Hj Hj) as [E4 B4].
  pose proof (limb_neg _ _ _ _ _ HB4 F5 F5 Hj Hj) as [E5 B5].
  pose proof (limb_neg _ _ _ _ _ HB5 F6 F6 Hj Hj) as [E6 B6].
  pose proof (limb_neg _ _ _ _ _ HB4 F7 F7 Hj Hj) as [E7 B7].
  pose proof (limb_neg _ _ _ _ _ HB5 F8 F8 Hj Hj) as [E8 B8].
  pose proof (limb_neg _ _ _ _ _ HB4 F9 F9 Hj Hj) as [E9 B9].
  assert (E : fe_neg f = fe_negZ f).
  { unfold fe_neg, fe_negZ, map2_fe. cbv beta. rewrite E0,E1,E2,E3,E4,E5,E6,E7,E8,E9. reflexivity. }
  split; [exact E|]. rewrite E.
  unfold fe_negZ, map2_fe, feval, bnd; cbn [r0 r1 r2 r3 r4 r5 r6 r7 r8 r9].
  split; [ring|]. repeat split; assumption.
Qed.
Lemma bnd_mono j k f : bnd j f -> j <= k -> bnd k f.
Proof.
  unfold bnd. intros (F0&F1&F2&F3&F4&F5&F6&F7&F8&F9) H.
  assert (j * 2^25 <= k * 2^25 /\ j * 2^24 <= k * 2^24) as [M5 M4] by lia.
  repeat split; eapply Z.le_trans; eassumption.
Qed.

(** ** modP *)
(** quotient: nested floors *)
Lemma modP_q_itv : check_itv modP_q_prog (f_itv 1000)
   ((v_q, (-400, 400)) :: h_itv 1000) = true.
Proof. vm_compute. reflexivity. Qed.

Lemma modP_q_val f :
  let m := runZ modP_q_prog (mk_env (load_f f)) in
  let q := (r9 f + (r8 f + (r7 f + (r6 f + (r5 f + (r4 f + (r3 f + (r2 f + (r1 f +
            (r0 f + (19 * r9 f + 2^24) / 2^25) / 2^26) / 2^25) / 2^26) / 2^25) / 2^26) / 2^25)
            / 2^26) / 2^25) / 2^26) / 2^25 in
  get m v_q = q /\ read_h m = f.
Proof. destruct f. split; reflexivity. Qed.

(** a canonical digit string of 255 bits *)
Definition canon (h : fe) : Prop :=
  0 <= r0 h < 2^26 /\ 0 <= r1 h < 2^25 /\ 0 <= r2 h < 2^26 /\ 0 <= r3 h < 2^25 /\
  0 <= r4 h < 2^26 /\ 0 <= r5 h < 2^25 /\ 0 <= r6 h < 2^26 /\ 0 <= r7 h < 2^25 /\
  0 <= r8 h < 2^26 /\ 0 <= r9 h < 2^25.

Definition dig26 : itv := (0, 2^26 - 1).
Definition dig25 : itv := (0, 2^25 - 1).
Definition h_dig : list (positive * itv) :=
  [(v_h0, dig26); (v_h1, dig25); (v_h2, dig26); (v_h3, dig25); (v_h4, dig26);
   (v_h5, dig25); (v_h6, dig26); (v_h7, dig25); (v_h8, dig26); (v_h9, dig25)].
Lemma modP_r_itv : check_itv modP_r_prog ((v_q, (-400, 400)) :: h_itv 1000) h_dig = true.
Proof. vm_compute. reflexivity. Qed.
Lemma modP_r_poly : check_poly 0 modP_r_prog (lin hs ++ [([v_carry9], 2^255)]) (lin hs ++ [([v_q], 19)]) = true.
Proof. vm_compute. reflexivity. Qed.

Lemma poly_val_app m a b : poly_val m (a ++ b) = poly_val m a + poly_val m b.
Proof. induction a as [|[l c] a IH]; cbn [app poly_val]; [reflexivity|]. rewrite IH. ring. Qed.

Lemma cong0 a b : cong 0 a b -> a = b.
Proof. intros [k H]. lia. Qed.

Lemma canon_bound h : canon h -> 0 <= feval h < 2^255.
Proof. unfold canon, feval. lia. Qed.

Lemma divq a k : 0 < k -> exists q r, a / k = q /\ a = k * q + r /\ 0 <= r < k.
Proof.
  intros H. exists (a / k), (a mod k). split; [reflexivity|].
  split; [apply Z.div_mod; lia|apply Z.mod_pos_bound; lia].
Qed.

Lemma abs10 x k : 100 * Z.abs x <= 1000 * 2^k -> - (10 * 2^k) <= x <= 10 * 2^k.
Proof. lia. Qed.

Lemma modP_quot f q : bnd 1000 f ->
  q = (r9 f + (r8 f + (r7 f + (r6 f + (r5 f + (r4 f + (r3 f + (r2 f + (r1 f +
            (r0 f + (19 * r9 f + 2^24) / 2^25) / 2^26) / 2^25) / 2^26) / 2^25) / 2^26) / 2^25)
            / 2^26) / 2^25) / 2^26) / 2^25 ->
  0 <= feval f - q * p25519 < p25519.
Proof.
  intros (F0&F1&F2&F3&F4&F5&F6&F7&F8&F9) Hq.
  destruct (divq (19 * r9 f + 2^24) (2^25) ltac:(lia)) as (c & e & Ec & Dc & Be).
  rewrite Ec in Hq.
  destruct (divq (r0 f + c) (2^26) ltac:(lia)) as (q0 & e0 & E0 & D0 & B0). rewrite E0 in Hq.
  destruct (divq (r1 f + q0) (2^25) ltac:(lia)) as (q1 & e1 & E1 & D1 & B1). rewrite E1 in Hq.
  destruct (divq (r2 f + q1) (2^26) ltac:(lia)) as (q2 & e2 & E2 & D2 & B2). rewrite E2 in Hq.
  destruct (divq (r3 f + q2) (2^25) ltac:(lia)) as (q3 & e3 & E3 & D3 & B3). rewrite E3 in Hq.
  destruct (divq (r4 f + q3) (2^26) ltac:(lia)) as (q4 & e4 & E4 & D4 & B4). rewrite E4 in Hq.
  destruct (divq (r5 f + q4) (2^25) ltac:(lia)) as (q5 & e5 & E5 & D5 & B5). rewrite E5 in Hq.
  destruct (divq (r6 f + q5) (2^26) ltac:(lia)) as (q6 & e6 & E6 & D6 & B6). rewrite E6 in Hq.
  destruct (divq (r7 f + q6) (2^25) ltac:(lia)) as (q7 & e7 & E7 & D7 & B7). rewrite E7 in Hq.
  destruct (divq (r8 f + q7) (2^26) ltac:(lia)) as (q8 & e8 & E8 & D8 & B8). rewrite E8 in Hq.
  destruct (divq (r9 f + q8) (2^25) ltac:(lia)) as (q9 & e9 & E9 & D9 & B9). rewrite E9 in Hq.
  subst q. clear Ec E0 E1 E2 E3 E4 E5 E6 E7 E8 E9.
  set (s := e0 + 2^26 * e1 + 2^51 * e2 + 2^77 * e3 + 2^102 * e4 + 2^128 * e5 + 2^153 * e6
            + 2^179 * e7 + 2^204 * e8 + 2^230 * e9).
  assert (Bs : 0 <= s < 2^255).
  { clear - B0 B1 B2 B3 B4 B5 B6 B7 B8 B9. subst s. lia. }
  set (low := r0 f + 2^26 * r1 f + 2^51 * r2 f + 2^77 * r3 f + 2^102 * r4 f +
              2^128 * r5 f + 2^153 * r6 f + 2^179 * r7 f + 2^204 * r8 f).
  apply abs10 in F0, F1, F2, F3, F4, F5, F6, F7, F8, F9.
  assert (Bl : - 2^235 <= low <= 2^235) by (unfold low; lia).
  assert (Bc : - 2^40 <= c <= 2^40) by lia.
  assert (Hs : feval f + c = 2^255 * q9 + s).
  { unfold feval, s. lia. }
  assert (Hl : feval f = low + 2^230 * r9 f) by (unfold feval, low; ring).
  clearbody s low. unfold p25519. lia.
Qed.

Lemma h_dig_canon M :
  (forall x i, In (x, i) h_dig -> in_itv (get M x) i) -> canon (read_h M).
Proof.
  intros H. unfold canon, read_h; cbn [r0 r1 r2 r3 r4 r5 r6 r7 r8 r9].
  assert (I26 : forall x, In (x, dig26) h_dig -> 0 <= get M x < 2^26)
    by (intros x Hx; apply H in Hx; unfold in_itv, dig26 in Hx; cbn [fst snd] in Hx; lia).
  assert (I25 : forall x, In (x, dig25) h_dig -> 0 <= get M x < 2^25)
    by (intros x Hx; apply H in Hx; unfold in_itv, dig25 in Hx; cbn [fst snd] in Hx; lia).
  unfold h_dig in I26, I25; cbn [In] in I26, I25.
  refine (conj (I26 _ _) (conj (I25 _ _) (conj (I26 _ _) (conj (I25 _ _) (conj (I26 _ _)
      (conj (I25 _ _) (conj (I26 _ _) (conj (I25 _ _) (conj (I26 _ _) (I25 _ _))))))))));
      tauto.
Qed.
Lemma poly_val_1 m x c : poly_val m [([x], c)] = c * get m x.
Proof. cbn [poly_val mono_val]. ring. Qed.

Lemma modP_combine f h q cc : bnd 1000 f -> canon h ->
  0 <= feval f - q * p25519 < p25519 ->
  feval h + 2^255 * cc = feval f + 19 * q -> feval h = feval f mod p25519.
Proof.
  intros Hf C R P. pose proof (canon_bound _ C) as CB.
  assert (Hc : feval h = feval f - q * p25519 + 2^255 * (q - cc)) by (unfold p25519; lia).
  assert (q = cc) by (unfold p25519 in R; lia).
  apply Z.mod_unique with q; [left; unfold p25519 in *; lia|]. unfold p25519 in *. lia.
Qed.

Lemma modP_r_val M :
  poly_val (runZ modP_r_prog M) (lin hs) + 2^255 * get (runZ modP_r_prog M) v_carry9
  = poly_val M (lin hs) + 19 * get M v_q.
Proof.
  pose proof (cong0 _ _ (check_poly_sound _ _ _ _ M modP_r_poly)) as P.
  rewrite !poly_val_app, !poly_val_1 in P. exact P.
Qed.

Theorem fe_modP_ok f : bnd 1000 f ->
  feval (fe_modP f) = feval f mod p25519 /\ canon (fe_modP f).
Proof.
  intros Hf. unfold fe_modP. rewrite run64_app.
  generalize (check_itv_sound _ _ _ (mk_env (load_f f)) modP_q_itv (bnd_f1_itv _ _ Hf)).
  intros [E B]. rewrite E. clear E.
  pose proof (modP_q_val f) as QH. cbv zeta in QH.
  generalize dependent (runZ modP_q_prog (mk_env (load_f f))). intros m1 B [Q H].
  destruct (check_itv_sound _ _ _ m1 modP_r_itv B) as [E1 B1]. rewrite E1. clear E1.
  pose proof (modP_r_val m1) as P. rewrite !lin_h, H in P.
  generalize dependent (runZ modP_r_prog m1). intros m2 B1 P.
  pose proof (h_dig_canon _ B1) as C.
  split; [|exact C].
  eapply modP_combine; [exact Hf|exact C|apply modP_quot; [exact Hf|exact Q]|exact P].
Qed.
