(** Lemmas for C89 and C80: doubleScalarMultiplyVariableTime on elements that others precompute. *)
From Coq Require Import List ZArith Lia Bool.
From Verif Require Import GoBase ByteLemmas FieldModel GroupModel Fp Curve GroupSpec GroupProofs ScalarMul ScalarSpec SlideProofs SlideSharp SlideExact
  VerifyProofs TextModel TextSpec BasePoint RecoverModel PropRecoverLemmas RaceModel RaceSpec RaceProofs PropRaceLemmas WeakModel WeakSpec WeakProofs PropWeakLemmas.
Import ListNotations.
Open Scope Z_scope.

Lemma slide_all a : wf_bytes a -> (32 <= length a)%nat ->
  exists s, slide a = Ok s /\ length s = 256%nat /\ Forall okd s /\ dv 2 s = double_scalar (le_val (firstn 32 a)).
Proof.
  intros W L. pose proof (sval_naf a W L) as V. unfold sval in V. destruct (slide_ok a W L) as (s & E & A1 & A2 & _). rewrite E in V.
  exists s. repeat (split; [assumption|]). exact V.
Qed.
(** ** Right or panic *)
Definition entries_right (l : list store) (P : point) : Prop :=
  forall t j e, In (SDEntry t j e) l -> repc PRECOMPUTED e (zmul (2 * Z.of_nat j + 1) P).
Lemma load_right l P d x : entries_right l P -> odd15 d -> 0 < d -> load_entry l (Z.quot d 2) x ->
  x = Panic \/ x = Ok None \/ exists e, x = Ok (Some e) /\ repc PRECOMPUTED e (zmul d P).
Proof.
  intros T [O D] H L.
  assert (E : exists k, d = 2 * k + 1 /\ Z.quot d 2 = k /\ 0 <= k <= 7).
  { apply Z.odd_spec in O. destruct O as [k O]. exists k. split; [exact O|]. split; [|lia].
    rewrite Z.quot_div_nonneg by lia. rewrite O. symmetry. apply Z.div_unique with 1; lia. }
  destruct E as (k & Ek & E & Hk). rewrite E in L. destruct L as [|t|t e Ht Hi He]; [left; reflexivity|right; left; reflexivity|].
  right. right. exists e. split; [reflexivity|]. specialize (T _ _ _ He). replace (2 * Z.of_nat (Z.to_nat k) + 1) with d in T by lia. exact T.
Qed.
Lemma sub_right t3 P Q d x : repc P3 t3 Q -> x = Panic \/ x = Ok None \/ (exists e, x = Ok (Some e) /\ repc PRECOMPUTED e (zmul d P)) ->
  (do e <- x; r_prec_sub t3 e) = Panic \/ exists t', (do e <- x; r_prec_sub t3 e) = Ok t' /\ repc P1xP1 t' (psub Q (zmul d P)).
Proof.
  intros H [->|[->|(e & -> & He)]]; [left; reflexivity|left; reflexivity|]. right. cbn [bind r_prec_sub]. exact (g_precomputedSubtract_ok _ _ _ _ H He).
Qed.
Lemma add_right t3 P Q d x : repc P3 t3 Q -> x = Panic \/ x = Ok None \/ (exists e, x = Ok (Some e) /\ repc PRECOMPUTED e (zmul d P)) ->
  (do e <- x; r_prec_add t3 e) = Panic \/ exists t', (do e <- x; r_prec_add t3 e) = Ok t' /\ repc P1xP1 t' (padd Q (zmul d P)).
Proof.
  intros H [->|[->|(e & -> & He)]]; [left; reflexivity| |].
  - left. cbn [bind r_prec_add]. destruct H as [-> _]. reflexivity.
  - right. cbn [bind r_prec_add]. exact (g_precomputedAdd_ok _ _ _ _ H He).
Qed.
Lemma digit_a_right l P t Q d x : entries_right l P -> okd d -> repc P1xP1 t Q -> w_digit_a l d t x ->
  x = Panic \/ exists t', x = Ok t' /\ repc P1xP1 t' (psub Q (zmul d P)).
Proof.
  intros T Hd H W. destruct (to_P3_P1 _ _ H) as (t3 & E3 & H3). destruct W as [x Hp L|x Hn L|E].
  - rewrite E3. cbn [bind]. apply sub_right; [exact H3|]. apply (load_right l); [exact T| |exact Hp|exact L]. destruct Hd as [|Hd]; [lia|exact Hd].
  - rewrite E3. cbn [bind]. assert (O : odd15 d) by (destruct Hd as [|Hd]; [lia|exact Hd]).
    rewrite w8_id in L by (destruct O; lia). unfold psub. rewrite <- zmul_opp. apply add_right; [exact H3|].
    apply (load_right l); [exact T|apply odd15_opp, O|lia|exact L].
  - right. exists t. split; [reflexivity|]. subst d. rewrite zmul_0. unfold psub. rewrite pneg_0, padd_0_r. exact H.
Qed.
Lemma digit_b_right l P t Q d x : entries_right l P -> okd d -> repc P1xP1 t Q -> w_digit_b l d t x ->
  x = Panic \/ exists t', x = Ok t' /\ repc P1xP1 t' (padd Q (zmul d P)).
Proof.
  intros T Hd H W. destruct (to_P3_P1 _ _ H) as (t3 & E3 & H3). destruct W as [x Hp L|x Hn L|E].
  - rewrite E3. cbn [bind]. apply add_right; [exact H3|]. apply (load_right l); [exact T| |exact Hp|exact L]. destruct Hd as [|Hd]; [lia|exact Hd].
  - rewrite E3. cbn [bind]. assert (O : odd15 d) by (destruct Hd as [|Hd]; [lia|exact Hd]).
    rewrite w8_id in L by (destruct O; lia). replace (zmul d P) with (pneg (zmul (- d) P)) by (rewrite <- zmul_opp, Z.opp_involutive; reflexivity).
    apply sub_right; [exact H3|]. apply (load_right l); [exact T|apply odd15_opp, O|lia|exact L].
  - right. exists t. split; [reflexivity|]. subst d. rewrite zmul_0, padd_0_r. exact H.
Qed.
Section Right.
Variables lB lA : list store.
Variables PB PA : point.
Hypothesis HB : entries_right lB PB.
Hypothesis HA : entries_right lA PA.
Lemma wstep_right ai bi r Q x : okd ai -> okd bi -> repc P2 r Q -> w_dsm_step lB lA ai bi r x ->
  x = Panic \/ exists r', x = Ok r' /\ repc P2 r' (padd (psub (zmul 2 Q) (zmul ai PA)) (zmul bi PB)).
Proof.
  intros Ha Hb H (y & Ey & W). destruct (g_dbl_P2 _ _ H) as (t & Et & Ht). rewrite <- zmul_2 in Ht. rewrite Et in Ey. subst y. cbv beta iota in W.
  destruct W as (y & Wa & W). destruct (digit_a_right lA PA t _ ai y HA Ha Ht Wa) as [->|(t' & -> & Ht')]; cbv beta iota in W; [left; exact W|].
  destruct W as (z & Wb & W). destruct (digit_b_right lB PB t' _ bi z HB Hb Ht' Wb) as [->|(t2 & -> & Ht2)]; cbv beta iota in W; [left; exact W|].
  destruct (to_P2_P1 _ _ Ht2) as (r' & Er & Hr). right. exists r'. split; [rewrite <- W; exact Er|exact Hr].
Qed.
Lemma wloop_right ds : forall flag r alpha beta x,
  Forall (fun d => okd (fst d) /\ okd (snd d)) ds -> (flag = false -> alpha = 0 /\ beta = 0) ->
  repc P2 r (psub (zmul beta PB) (zmul alpha PA)) -> w_dsm_loop lB lA ds flag r x ->
  x = Panic \/ exists r', x = Ok r' /\ repc P2 r' (psub (zmul (horner (map snd ds) beta) PB) (zmul (horner (map fst ds) alpha) PA)).
Proof.
  induction ds as [|[ai bi] ds IH]; intros flag r alpha beta x HD HF H W.
  - right. exists r. split; [symmetry; exact W|exact H].
  - inversion HD as [|? ? [Ha Hb] HD']; subst. cbn [fst snd] in Ha, Hb. cbn [w_dsm_loop map fst snd] in *.
    change (horner (bi :: map snd ds) beta) with (horner (map snd ds) (2 * beta + bi)).
    change (horner (ai :: map fst ds) alpha) with (horner (map fst ds) (2 * alpha + ai)).
    destruct W as (y & Wy & W). destruct (flag || negb (ai =? 0) || negb (bi =? 0)) eqn:F.
    + destruct (wstep_right _ _ _ _ _ Ha Hb H Wy) as [->|(r' & -> & H')]; cbv beta iota in W; [left; exact W|].
      apply (IH true r' _ _ x HD' ltac:(discriminate)); [|exact W].
      match goal with H : repc P2 r' ?u |- repc P2 r' ?v => replace v with u; [exact H|] end.
      rewrite !zmul_add. unfold psub. rewrite !pneg_add, !zmul_padd, !zmul_neg, <- !zmul_mul.
      rewrite !padd_assoc. f_equal. rewrite (padd_comm (zmul bi PB)). rewrite !padd_assoc. reflexivity.
    + subst y. cbv beta iota in W. apply orb_false_iff in F as [F F3]. apply orb_false_iff in F as [F1 F2].
      apply negb_false_iff, Z.eqb_eq in F2, F3. subst ai bi. destruct (HF F1) as [-> ->].
      exact (IH false r 0 0 x HD' ltac:(split; reflexivity) H W).
Qed.
Lemma wdouble_right a b x : wf_bytes a -> wf_bytes b -> w_double_multiply lB lA a b x ->
  x = Panic \/ exists r, x = Ok r /\
    repc P2 r (psub (zmul (double_scalar (le_val (firstn 32 b))) PB) (zmul (double_scalar (le_val (firstn 32 a))) PA)).
Proof.
  intros Wa Wb (y & Ey & W). destruct (Nat.ltb_spec (length a) 32) as [L|L].
  { unfold slide in Ey. rewrite (proj2 (Nat.ltb_lt _ _) L) in Ey. subst y. left. exact W. }
  destruct (slide_all a Wa L) as (sa & Ea & A1 & A2 & A3). rewrite Ea in Ey. subst y. cbv beta iota in W.
  destruct W as (y & Ey & W). destruct (Nat.ltb_spec (length b) 32) as [L'|L'].
  { unfold slide in Ey. rewrite (proj2 (Nat.ltb_lt _ _) L') in Ey. subst y. left. exact W. }
  destruct (slide_all b Wb L') as (sb & Eb & B1 & B2 & B3). rewrite Eb in Ey. subst y. cbv beta iota in W.
  destruct (wloop_right (rev (combine sa sb)) false zero_P2 0 0 x) as [->|(r & -> & R)].
  - apply Forall_rev, Forall_combine; assumption.
  - intros _. split; reflexivity.
  - rewrite !zmul_0. unfold psub. rewrite pneg_0, padd_0_r. apply zero_P2_rep.
  - exact W.
  - left. reflexivity.
  - right. exists r. split; [reflexivity|].
    rewrite !map_rev, combine_fst, combine_snd in R by congruence. rewrite !horner_rev, A3, B3 in R. exact R.
Qed.
End Right.

(** ** It can panic exactly when a digit needs a table *)
Lemma digit_a_panics l d t Q : d <> 0 -> repc P1xP1 t Q -> w_digit_a l d t Panic.
Proof.
  intros H R. destruct (to_P3_P1 _ _ R) as (t3 & E3 & _). destruct (Z_lt_le_dec 0 d) as [S'|S'].
  - pose proof (wa_pos l d t Panic S' (le_panic _ _)) as W. rewrite E3 in W. exact W.
  - pose proof (wa_neg l d t Panic ltac:(lia) (le_panic _ _)) as W. rewrite E3 in W. exact W.
Qed.
Lemma digit_b_panics l d t Q : d <> 0 -> repc P1xP1 t Q -> w_digit_b l d t Panic.
Proof.
  intros H R. destruct (to_P3_P1 _ _ R) as (t3 & E3 & _). destruct (Z_lt_le_dec 0 d) as [S'|S'].
  - pose proof (wb_pos l d t Panic S' (le_panic _ _)) as W. rewrite E3 in W. exact W.
  - pose proof (wb_neg l d t Panic ltac:(lia) (le_panic _ _)) as W. rewrite E3 in W. exact W.
Qed.
Lemma step_panics lB lA ai bi r Q : ai <> 0 \/ bi <> 0 -> repc P2 r Q -> w_dsm_step lB lA ai bi r Panic.
Proof.
  intros H R. destruct (g_dbl_P2 _ _ R) as (t & Et & Ht). exists (Ok t). split; [exact Et|]. cbv beta iota.
  destruct (Z.eq_dec ai 0) as [->|N].
  - exists (Ok t). split; [apply wa_zero; reflexivity|]. cbv beta iota. exists Panic. split; [|reflexivity].
    apply (digit_b_panics lB bi t _ ltac:(destruct H as [H|H]; [elim H; reflexivity|exact H]) Ht).
  - exists Panic. split; [exact (digit_a_panics lA ai t _ N Ht)|reflexivity].
Qed.
Lemma loop_panics lB lA ds : forall r Q, (exists d, In d ds /\ (fst d <> 0 \/ snd d <> 0)) -> repc P2 r Q -> w_dsm_loop lB lA ds false r Panic.
Proof.
  induction ds as [|[ai bi] ds IH]; intros r Q (d & Hd & N) R; [destruct Hd|]. cbn [w_dsm_loop orb].
  destruct (Z.eqb_spec ai 0) as [Ea|Ea]; cbn [negb orb].
  - destruct (Z.eqb_spec bi 0) as [Eb|Eb]; cbn [negb].
    + exists (Ok r). split; [reflexivity|]. cbv beta iota. apply (IH r Q); [|exact R].
      destruct Hd as [<-|Hd]; [cbn [fst snd] in N; lia|]. exists d. split; assumption.
    + exists Panic. split; [|reflexivity]. exact (step_panics _ _ _ _ _ Q (or_intror Eb) R).
  - exists Panic. split; [|reflexivity]. exact (step_panics _ _ _ _ _ Q (or_introl Ea) R).
Qed.
Lemma dv_nonzero l : dv 2 l <> 0 -> exists d, In d l /\ d <> 0.
Proof.
  induction l as [|x l IH]; cbn [dv]; intros H; [lia|]. destruct (Z.eq_dec x 0) as [->|N]; [|exists x; split; [left; reflexivity|exact N]].
  destruct (IH ltac:(lia)) as (d & Hd & N). exists d. split; [right; exact Hd|exact N].
Qed.
Lemma in_combine (l m : list Z) : length l = length m -> (forall x, In x l -> exists y, In (x, y) (combine l m)) /\
  (forall y, In y m -> exists x, In (x, y) (combine l m)).
Proof.
  revert m. induction l as [|a l IH]; intros [|b m] H; try discriminate H; [split; intros x []|]. cbn [length] in H. destruct (IH m ltac:(lia)) as [I1 I2].
  split; intros x [<-|Hx]; cbn [combine In].
  - exists b. left. reflexivity.
  - destruct (I1 x Hx) as (y & Hy). exists y. right. exact Hy.
  - exists a. left. reflexivity.
  - destruct (I2 x Hx) as (y & Hy). exists y. right. exact Hy.
Qed.
Lemma naf_zero n : naf_digits n 0 = repeat 0 n.
Proof. induction n as [|n IH]; [reflexivity|]. cbn [naf_digits repeat]. change (naf_digit 0) with 0. change ((0 - 0) / 2) with 0. rewrite IH. reflexivity. Qed.
Lemma weak_firstn n l : wf_bytes l -> wf_bytes (firstn n l).
Proof. intros W. apply Forall_forall. intros x Hx. apply (proj1 (Forall_forall _ _) W). rewrite <- (firstn_skipn n l). apply in_or_app. left. exact Hx. Qed.
Lemma first32_range a : wf_bytes a -> (32 <= length a)%nat -> 0 <= le_val (firstn 32 a) < 2 ^ 256.
Proof.
  intros W L. pose proof (le_val_bound (firstn 32 a) (weak_firstn 32 a W)) as B. rewrite firstn_length_le in B by exact L.
  change (256 ^ Z.of_nat 32) with (2 ^ 256) in B. exact B.
Qed.
Lemma slide_zero a : wf_bytes a -> (32 <= length a)%nat -> le_val (firstn 32 a) = 0 -> slide a = Ok (repeat 0 256).
Proof. intros W L V. pose proof (slide_exact a W L) as E. rewrite V, naf_zero in E. exact E. Qed.
Lemma zeros_loop lB lA n r x : w_dsm_loop lB lA (repeat (0, 0) n) false r x -> x = Ok r.
Proof.
  induction n as [|n IH]; intros W; [symmetry; exact W|]. cbn [repeat w_dsm_loop] in W. change (false || negb (0 =? 0) || negb (0 =? 0)) with false in W.
  destruct W as (y & <- & W). exact (IH W).
Qed.
Lemma combine_repeat n : combine (repeat 0 n) (repeat 0 n) = repeat (0, 0) n.
Proof. induction n as [|n IH]; [reflexivity|]. cbn [repeat combine]. rewrite IH. reflexivity. Qed.
Lemma rev_repeat {A} (x : A) n : rev (repeat x n) = repeat x n.
Proof.
  induction n as [|n IH]; [reflexivity|]. cbn [repeat rev]. rewrite IH. rewrite <- repeat_cons. reflexivity.
Qed.
Lemma wdouble_panics lB lA a b : wf_bytes a -> (32 <= length a)%nat -> wf_bytes b -> (32 <= length b)%nat ->
  (w_double_multiply lB lA a b Panic <-> le_val (firstn 32 a) <> 0 \/ le_val (firstn 32 b) <> 0).
Proof.
  intros Wa La Wb Lb. split.
  - intros W. destruct (Z.eq_dec (le_val (firstn 32 a)) 0) as [Ea|]; [|left; assumption].
    destruct (Z.eq_dec (le_val (firstn 32 b)) 0) as [Eb|]; [|right; assumption].
    destruct W as (y & Ey & W). rewrite (slide_zero a Wa La Ea) in Ey. subst y. cbv beta iota in W.
    destruct W as (y & Ey & W). rewrite (slide_zero b Wb Lb Eb) in Ey. subst y. cbv beta iota in W.
    rewrite combine_repeat, rev_repeat in W. apply zeros_loop in W. discriminate W.
  - intros H. destruct (slide_all a Wa La) as (sa & Ea & A1 & _ & A3). destruct (slide_all b Wb Lb) as (sb & Eb & B1 & _ & B3).
    exists (Ok sa). split; [exact Ea|]. cbv beta iota. exists (Ok sb). split; [exact Eb|]. cbv beta iota.
    apply (loop_panics lB lA _ zero_P2 pzero); [|exact zero_P2_rep].
    pose proof (in_combine sa sb ltac:(congruence)) as [C1 C2].
    pose proof (double_scalar_any _ (first32_range a Wa La)) as [Da _]. pose proof (double_scalar_any _ (first32_range b Wb Lb)) as [Db _].
    pose proof (first32_range a Wa La) as Ra. pose proof (first32_range b Wb Lb) as Rb.
    destruct H as [H|H].
    + destruct (dv_nonzero sa) as (d & Hd & N); [rewrite A3; lia|]. destruct (C1 d Hd) as (e & He).
      exists (d, e). split; [apply in_rev in He; exact He|left; exact N].
    + destruct (dv_nonzero sb) as (d & Hd & N); [rewrite B3; lia|]. destruct (C2 d Hd) as (e & He).
      exists (e, d). split; [apply in_rev in He; exact He|right; exact N].
Qed.

(** ** With all stores seen in one order *)
Lemma w_bind_of {A B} (M : res A -> Prop) (F : A -> res B -> Prop) m f : M m -> (forall a, F a (f a)) -> w_bind M F (bind m f).
Proof. intros H K. exists m. split; [exact H|]. destruct m as [a|e|]; cbn [bind]; [apply K|reflexivity|reflexivity]. Qed.
Lemma held_entry c m l i : held_by m l -> load_entry l i (r_tab_at (r_double (seen c m)) i).
Proof.
  intros H. unfold seen, r_tab_at. cbn [r_double]. destruct (m_double m) as [t|] eqn:Et; cbn [option_map]; [|apply le_panic].
  destruct (Z.ltb_spec i 0) as [Hi|Hi]; [apply le_panic|]. destruct (nth_error (map (dtab m t) (seq 0 8)) (Z.to_nat i)) as [e|] eqn:E; [|apply le_panic].
  apply nth_map_seq in E as [Lt ->]. pose proof (h_double _ _ H t Et) as T. destruct (dtab m t (Z.to_nat i)) as [e|] eqn:Ed.
  - apply (le_entry _ _ t); [exact T|lia|exact (h_dtab _ _ H _ _ _ Ed)].
  - apply (le_nil _ _ t); [exact T|lia].
Qed.
Lemma one_order_step cB cA mB mA lB lA ai bi r : held_by mB lB -> held_by mA lA -> w_dsm_step lB lA ai bi r (r_dsm_step (seen cB mB) (seen cA mA) ai bi r).
Proof.
  intros HB HA. unfold w_dsm_step, r_dsm_step. apply w_bind_of; [reflexivity|]. intros t. apply w_bind_of.
  - destruct (Z.ltb_spec 0 ai) as [S1|S1]; [apply wa_pos; [exact S1|apply held_entry, HA]|].
    destruct (Z.ltb_spec ai 0) as [S2|S2]; [apply wa_neg; [exact S2|apply held_entry, HA]|apply wa_zero; lia].
  - intros t'. apply w_bind_of; [|reflexivity].
    destruct (Z.ltb_spec 0 bi) as [S1|S1]; [apply wb_pos; [exact S1|apply held_entry, HB]|].
    destruct (Z.ltb_spec bi 0) as [S2|S2]; [apply wb_neg; [exact S2|apply held_entry, HB]|apply wb_zero; lia].
Qed.
Lemma one_order_loop cB cA mB mA lB lA ds : held_by mB lB -> held_by mA lA -> forall flag r,
  w_dsm_loop lB lA ds flag r (r_dsm_loop (seen cB mB) (seen cA mA) ds flag r).
Proof.
  intros HB HA. induction ds as [|[ai bi] ds IH]; intros flag r; cbn [w_dsm_loop r_dsm_loop]; [reflexivity|].
  apply w_bind_of; [|intros r'; apply IH]. destruct (flag || negb (ai =? 0) || negb (bi =? 0)); [apply one_order_step; assumption|reflexivity].
Qed.
Lemma double_one_order cB cA hB hA : exists sB sA, wmoves cB wblank sB /\ wmoves cA wblank sA /\
  map fst (calls sB) = threads (race cB hB) /\ map fst (calls sA) = threads (race cA hA) /\
  forall a b, w_double_multiply (stores sB) (stores sA) a b
    (r_double_scalar_multiply (seen cB (memory (race cB hB))) (seen cA (memory (race cA hA))) a b).
Proof.
  destruct (includes cB hB) as (sB & B1 & B2 & B3). destruct (includes cA hA) as (sA & A1 & A2 & A3).
  exists sB, sA. repeat (split; [assumption|]). intros a b. unfold w_double_multiply, r_double_scalar_multiply.
  apply w_bind_of; [reflexivity|]. intros sa. apply w_bind_of; [reflexivity|]. intros sb. apply one_order_loop; assumption.
Qed.
Lemma weak_double cB PB cA PA sB sA a b x : repc P3 cB PB -> repc P3 cA PA -> wmoves cB wblank sB -> wmoves cA wblank sA ->
  wf_bytes a -> wf_bytes b -> w_double_multiply (stores sB) (stores sA) a b x ->
  x = Panic \/ exists r, x = Ok r /\
    repc P2 r (psub (zmul (double_scalar (le_val (firstn 32 b))) PB) (zmul (double_scalar (le_val (firstn 32 a))) PA)).
Proof.
  intros HB HA MB MA. apply (wdouble_right (stores sB) (stores sA) PB PA).
  - exact (proj2 (weak_entries cB PB HB sB MB)).
  - exact (proj2 (weak_entries cA PA HA sA MA)).
Qed.

(** ** Full tables *)
Lemma r_tab_full l i : r_tab_at (Some (map Some l)) i = (do e <- tab_at (Some l) i; Ok (Some e)).
Proof. unfold r_tab_at, tab_at. destruct (i <? 0); [reflexivity|]. rewrite nth_error_map. destruct (nth_error l (Z.to_nat i)); reflexivity. Qed.
Section Full.
Variables (B A : rge) (lB lA : list gcore) (B' A' : ge).
Hypothesis EB : r_double B = Some (map Some lB). Hypothesis EA : r_double A = Some (map Some lA).
Hypothesis EB' : double B' = Some lB. Hypothesis EA' : double A' = Some lA.
Lemma full_step ai bi r : r_dsm_step B A ai bi r = dsm_step B' A' ai bi r.
Proof.
  unfold r_dsm_step, dsm_step. rewrite EB, EA, EB', EA', !r_tab_full. destruct (g_dbl r) as [t|e|]; cbn [bind]; [|reflexivity..].
  assert (X : forall (m n : res gcore) (k k' : gcore -> res gcore), m = n -> (forall t, k t = k' t) -> bind m k = bind n k').
  { intros m n k k' -> K. destruct n; cbn [bind]; [apply K|reflexivity..]. }
  apply X.
  - destruct (0 <? ai); [|destruct (ai <? 0); [|reflexivity]]; (destruct (to_P3 t) as [t3|e|]; cbn [bind]; [|reflexivity..]).
    + destruct (tab_at (Some lA) (Z.quot ai 2)); reflexivity.
    + destruct (tab_at (Some lA) (Z.quot (w8 (- ai)) 2)); reflexivity.
  - intros t'. apply X; [|intros; reflexivity].
    destruct (0 <? bi); [|destruct (bi <? 0); [|reflexivity]]; (destruct (to_P3 t') as [t3|e|]; cbn [bind]; [|reflexivity..]).
    + destruct (tab_at (Some lB) (Z.quot bi 2)); reflexivity.
    + destruct (tab_at (Some lB) (Z.quot (w8 (- bi)) 2)); reflexivity.
Qed.
Lemma full_loop ds : forall flag r, r_dsm_loop B A ds flag r = dsm_loop B' A' ds flag r.
Proof.
  induction ds as [|[ai bi] ds IH]; intros flag r; cbn [r_dsm_loop dsm_loop]; [reflexivity|].
  destruct (flag || negb (ai =? 0) || negb (bi =? 0)).
  - rewrite full_step. destruct (dsm_step B' A' ai bi r); cbn [bind]; [apply IH|reflexivity..].
  - cbn [bind]. apply IH.
Qed.
Lemma full_same a b : r_double_scalar_multiply B A a b = g_doubleScalarMultiply B' A' a b.
Proof.
  unfold r_double_scalar_multiply, g_doubleScalarMultiply. destruct (slide a) as [sa|e|]; cbn [bind]; [|reflexivity..].
  destruct (slide b) as [sb|e|]; cbn [bind]; [|reflexivity..]. apply full_loop.
Qed.
End Full.
Lemma full_right B A PB PA a b : full_double B PB -> full_double A PA -> wf_bytes a -> (32 <= length a)%nat -> wf_bytes b -> (32 <= length b)%nat ->
  exists r, r_double_scalar_multiply B A a b = Ok r /\
    repc P2 r (psub (zmul (double_scalar (le_val (firstn 32 b))) PB) (zmul (double_scalar (le_val (firstn 32 a))) PA)).
Proof.
  intros (lB & EB & TB) (lA & EA & TA) Wa La Wb Lb.
  set (B' := Ge zero_P3 None (Some lB)). set (A' := Ge zero_P3 None (Some lA)).
  rewrite (full_same B A lB lA B' A' EB EA eq_refl eq_refl).
  exact (dsm_every B' A' lB lA PB PA a b eq_refl eq_refl TB TA Wa La Wb Lb).
Qed.
Lemma ex_weak_double : exists c s a b r, repc P3 c Bpt /\ wmoves c wblank s /\ has_ended s CDouble Returned /\ wf_bytes a /\ wf_bytes b /\
  w_double_multiply (stores s) (stores s) a b (Ok r) /\ repc P2 r (zmul 2 Bpt) /\ w_double_multiply (stores s) (stores s) a b Panic.
Proof.
  destruct ex_race as (c & _ & Hc & _ & _ & _ & h & S1 & E1 & N1).
  destruct (includes c h) as (s & M & E & H).
  assert (F : full_double (seen c (memory (race c h))) Bpt).
  { apply (double_done c Bpt Hc h N1); [|left; exists 0%nat; exact E1]. intros n X.
    pose proof (double_alone c Bpt Hc h ltac:(rewrite S1; intros [Y|[]]; discriminate Y) n _ X) as Y. discriminate Y. }
  set (a := 5 :: repeat 0 31). set (b := 7 :: repeat 0 31).
  assert (W : forall k, is_byte k -> wf_bytes (k :: repeat 0 31)).
  { intros k Hk. constructor; [exact Hk|]. apply Forall_forall. intros x Hx. apply repeat_spec in Hx. subst x. unfold is_byte. lia. }
  assert (Wa : wf_bytes a) by (apply W; unfold is_byte; lia). assert (Wb : wf_bytes b) by (apply W; unfold is_byte; lia).
  assert (Va : le_val (firstn 32 a) = 5) by (vm_compute; reflexivity). assert (Vb : le_val (firstn 32 b) = 7) by (vm_compute; reflexivity).
  assert (L : (32 <= length a)%nat /\ (32 <= length b)%nat) by (split; unfold a, b; cbn [length]; rewrite repeat_length; lia). destruct L as [La Lb].
  destruct (full_right _ _ _ _ a b F F Wa La Wb Lb) as (r & Er & Hr).
  pose proof (proj2 (double_scalar_any 5 ltac:(split; [lia|reflexivity])) ltac:(apply Z.lt_le_incl; reflexivity)) as D5.
  pose proof (proj2 (double_scalar_any 7 ltac:(split; [lia|reflexivity])) ltac:(apply Z.lt_le_incl; reflexivity)) as D7.
  rewrite Va, Vb, D5, D7 in Hr.
  exists c, s, a, b, r. split; [exact Hc|]. split; [exact M|]. split.
  { unfold ended in E1. rewrite <- E in E1. apply nth_error_In in E1. apply in_map_iff in E1 as ([y n] & Ey & Hy). cbn [fst] in Ey. subst y. exists n. exact Hy. }
  split; [exact Wa|]. split; [exact Wb|]. split; [|split].
  - rewrite <- Er. unfold w_double_multiply, r_double_scalar_multiply.
    apply w_bind_of; [reflexivity|]. intros sa. apply w_bind_of; [reflexivity|]. intros sb. apply one_order_loop; assumption.
  - replace (psub (zmul 7 Bpt) (zmul 5 Bpt)) with (zmul 2 Bpt) in Hr; [exact Hr|]. unfold psub. rewrite <- zmul_opp, <- zmul_add. reflexivity.
  - apply (wdouble_panics _ _ a b Wa La Wb Lb). left. rewrite Va. discriminate.
Qed.
