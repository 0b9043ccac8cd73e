(** Calls on one element on a weak memory: what every call keeps true. *)
From Coq Require Import List ZArith Lia Bool.
From Verif Require Import GoBase FieldModel GroupModel Fp Curve GroupSpec GroupProofs ScalarMul TextModel TextSpec PropTextLemmas
  RecoverModel PropRecoverLemmas RaceModel RaceSpec RaceProofs WeakModel WeakSpec.
Import ListNotations.
Open Scope Z_scope.

Section W.
Variable c : gcore.
Variable P : point.
Hypothesis Hc : repc P3 c P.

Definition entry (i j : nat) (e : gcore) : Prop := repc PRECOMPUTED e (zmul ((Z.of_nat j + 1) * 256 ^ Z.of_nat i) P).
Definition dentry (j : nat) (e : gcore) : Prop := repc PRECOMPUTED e (zmul (2 * Z.of_nat j + 1) P).
(** the row was made for index i *)
Definition made (l : list store) (r i : nat) : Prop := exists t, In (SRow t i r) l.
Lemma made_mono l l' r i : incl l l' -> made l r i -> made l' r i.
Proof. intros H (t & Ht). exists t. apply H. exact Ht. Qed.
Record sound (l : list store) : Prop := {
  so_row : forall t t' i i' r, In (SRow t i r) l -> In (SRow t' i' r) l -> i = i';
  so_entry : forall t i r j e, In (SRow t i r) l -> In (SEntry r j e) l -> entry i j e;
  so_made : forall r j e, In (SEntry r j e) l -> exists i, made l r i;
  so_dentry : forall t j e, In (SDEntry t j e) l -> dentry j e }.

(** A program that stores nothing wrong and ends with an outcome of this kind, whatever its loads give. *)
Section Out.
Variable out : outcome -> Prop.
Fixpoint fine (a : act) (l : list store) : Prop :=
  match a with
  | Fin o => out o
  | LoadS k | LoadD k => forall f l', incl l l' -> fine (k f) l'
  | NewS k | NewD k => forall l', incl l l' -> fine k l'
  | LoadR t i k => forall l', incl l l' -> fine (k None) l' /\ forall r, made l' r i -> fine (k (Some r)) l'
  | NewR t i k => forall l', incl l l' -> fine k l'
  | LoadE r j k => forall l', incl l l' -> fine (k None) l' /\ forall e, (forall i, made l' r i -> entry i j e) -> fine (k (Some e)) l'
  | StoreE r j e k => (exists i, made l r i /\ entry i j e) /\ forall l', incl l l' -> fine k l'
  | StoreDE t j e k => dentry j e /\ forall l', incl l l' -> fine k l'
  end.
Lemma fine_mono a l l' : incl l l' -> fine a l -> fine a l'.
Proof.
  intros L. destruct a as [o|k|k|k|k|t i k|t i k|r j k|r j e k|t j e k]; cbn [fine]; intros H; try exact H.
  1,2: (intros f l2 L2; apply H; exact (incl_tran L L2)).
  1,2,3,4,5: (intros l2 L2; apply H; exact (incl_tran L L2)).
  - destruct H as ((i & H1 & H2) & H3). split; [exists i; split; [exact (made_mono _ _ _ _ L H1)|exact H2]|].
    intros l2 L2. apply H3. exact (incl_tran L L2).
  - destruct H as (H1 & H3). split; [exact H1|]. intros l2 L2. apply H3. exact (incl_tran L L2).
Qed.
Hypothesis out_panic : out Panicked.
Lemma fine_step l a l' a' : sound l -> fine a l -> wstep l a l' a' -> sound l' /\ incl l l' /\ fine a' l'.
Proof.
  intros S F W. destruct W; cbn [fine] in F.
  all: try (split; [exact S|]; split; [apply incl_refl|]; try exact out_panic).
  all: try (apply F; apply incl_refl).
  - destruct (F l (incl_refl l)) as (_ & F2). apply F2. exists t. assumption.
  - destruct (F l (incl_refl l)) as (_ & F2). apply F2. intros i (t & Ht). apply (so_entry _ S t i r j e); assumption.
  - split; [|split; [apply incl_tl, incl_refl|apply F; apply incl_tl, incl_refl]].
    destruct S as [S1 S2 S4 S3]. constructor.
    + intros t1 t2 i i' r [Q|Q] [Q'|Q']; try discriminate; eapply S1; eassumption.
    + intros t1 i r j e [Q|Q] [Q'|Q']; try discriminate; eapply S2; eassumption.
    + intros r0 j0 e0 [Q|Q]; try discriminate. destruct (S4 _ _ _ Q) as (i0 & t0 & X). exists i0, t0. right. exact X.
    + intros t1 j e [Q|Q]; try discriminate; eapply S3; eassumption.
  - split; [|split; [apply incl_tl, incl_refl|apply F; apply incl_tl, incl_refl]].
    destruct S as [S1 S2 S4 S3]. constructor.
    + intros t1 t2 i i' r [Q|Q] [Q'|Q']; try discriminate; eapply S1; eassumption.
    + intros t1 i r j e [Q|Q] [Q'|Q']; try discriminate; eapply S2; eassumption.
    + intros r0 j0 e0 [Q|Q]; try discriminate. destruct (S4 _ _ _ Q) as (i0 & t0 & X). exists i0, t0. right. exact X.
    + intros t1 j e [Q|Q]; try discriminate; eapply S3; eassumption.
  - split; [|split; [apply incl_tl, incl_refl|apply F; apply incl_tl, incl_refl]].
    match goal with H : new_row _ _ |- _ => rename H into N1 end.
    destruct S as [S1 S2 S4 S3]. constructor.
    + intros t1 t2 i1 i2 r' [Q|Q] [Q'|Q'].
      * congruence.
      * injection Q as <- <- <-. elim (N1 _ _ Q').
      * injection Q' as <- <- <-. elim (N1 _ _ Q).
      * eapply S1; eassumption.
    + intros t1 i1 r' j e [Q|Q] [Q'|Q']; try discriminate.
      * injection Q as <- <- <-. destruct (S4 _ _ _ Q') as (i0 & t0 & X). elim (N1 _ _ X).
      * eapply S2; eassumption.
    + intros r0 j0 e0 [Q|Q]; try discriminate. destruct (S4 _ _ _ Q) as (i0 & t0 & X). exists i0, t0. right. exact X.
    + intros t1 j e [Q|Q]; try discriminate; eapply S3; eassumption.
  - destruct F as ((i & F1 & F2) & F3).
    split; [|split; [apply incl_tl, incl_refl|apply F3; apply incl_tl, incl_refl]].
    destruct S as [S1 S2 S4 S3]. constructor.
    + intros t1 t2 i1 i' r1 [Q|Q] [Q'|Q']; try discriminate; eapply S1; eassumption.
    + intros t1 i1 r1 j1 e1 [Q|Q] [Q'|Q']; try discriminate; [|eapply S2; eassumption].
      destruct F1 as (t0 & F1).
      assert (E1 : r = r1) by (apply (f_equal (fun s => match s with SEntry x _ _ => x | _ => r end)) in Q'; exact Q').
      assert (E2 : j = j1) by (apply (f_equal (fun s => match s with SEntry _ x _ => x | _ => j end)) in Q'; exact Q').
      assert (E3 : e = e1) by (apply (f_equal (fun s => match s with SEntry _ _ x => x | _ => e end)) in Q'; exact Q').
      subst r1 j1 e1. rewrite (S1 t1 t0 i1 i r Q F1). exact F2.
    + intros r0 j0 e0 [Q|Q].
      * destruct F1 as (t0 & F1). assert (E1 : r = r0) by (apply (f_equal (fun s => match s with SEntry x _ _ => x | _ => r end)) in Q; exact Q).
        subst r0. exists i, t0. right. exact F1.
      * destruct (S4 _ _ _ Q) as (i0 & t0 & X). exists i0, t0. right. exact X.
    + intros t1 j1 e1 [Q|Q]; try discriminate; eapply S3; eassumption.
  - destruct F as (F1 & F3).
    split; [|split; [apply incl_tl, incl_refl|apply F3; apply incl_tl, incl_refl]].
    destruct S as [S1 S2 S4 S3]. constructor.
    + intros t1 t2 i1 i' r1 [Q|Q] [Q'|Q']; try discriminate; eapply S1; eassumption.
    + intros t1 i1 r1 j1 e1 [Q|Q] [Q'|Q']; try discriminate; eapply S2; eassumption.
    + intros r0 j0 e0 [Q|Q]; try discriminate. destruct (S4 _ _ _ Q) as (i0 & t0 & X). exists i0, t0. right. exact X.
    + intros t1 j1 e1 [Q'|Q']; [|eapply S3; eassumption].
      assert (E2 : j = j1) by (apply (f_equal (fun s => match s with SDEntry _ x _ => x | _ => j end)) in Q'; exact Q').
      assert (E3 : e = e1) by (apply (f_equal (fun s => match s with SDEntry _ _ x => x | _ => e end)) in Q'; exact Q').
      subst j1 e1. exact F1.
Qed.

(** ** The precomputations *)
Hypothesis out_returned : out Returned.
Lemma fine_copy k l : (forall l', incl l l' -> fine k l') -> fine (p_copy k) l.
Proof.
  intros H. unfold p_copy. cbn [fine]. intros s l1 L1 d l2 L2 s' l3 L3.
  assert (L : incl l l3) by (eapply incl_tran; [exact L1|eapply incl_tran; [exact L2|exact L3]]).
  assert (K : fine (LoadD (fun d' => match d, d' with None, Some _ => Fin Panicked | _, _ => k end)) l3).
  { cbn [fine]. intros d' l4 L4. assert (K4 : fine k l4) by (apply H; exact (incl_tran L L4)).
    destruct d, d'; try exact K4; exact out_panic. }
  destruct s, s'; first [exact K|exact out_panic].
Qed.
Lemma fine_cols m : forall i j Bi Bij next l,
  repc P3 Bi (zmul (256 ^ Z.of_nat i) P) -> repc P3 Bij (zmul ((Z.of_nat j + 1) * 256 ^ Z.of_nat i) P) ->
  (forall l', incl l l' -> fine next l') -> fine (p_cols m i j Bi Bij next) l.
Proof.
  induction m as [|m IH]; intros i j Bi Bij next l H1 H2 K; cbn [p_cols]; [apply K, incl_refl|].
  cbn [fine]. intros f l1 L1. destruct f as [t|]; [|exact out_panic]. cbn [fine]. intros l2 L2. split; [exact out_panic|].
  intros r Mr. cbn [fine]. split; [exists i; split; [exact Mr|apply prec_entry_ok; exact H2]|].
  intros l3 L3. destruct (add_P3_ok _ _ _ _ H2 H1) as (b & -> & Hb). apply IH; [exact H1| |].
  - rewrite <- zmul_add in Hb. replace ((Z.of_nat (S j) + 1) * 256 ^ Z.of_nat i) with ((Z.of_nat j + 1) * 256 ^ Z.of_nat i + 256 ^ Z.of_nat i) by lia.
    exact Hb.
  - intros l4 L4. apply K. exact (incl_tran L1 (incl_tran L2 (incl_tran L3 L4))).
Qed.
Lemma fine_rows n : forall i Bi l, repc P3 Bi (zmul (256 ^ Z.of_nat i) P) -> fine (p_rows n i Bi) l.
Proof.
  induction n as [|n IH]; intros i Bi l H; cbn [p_rows]; [exact out_returned|].
  assert (N : forall l', fine (match dbl_n 8 Bi with Ok Bi' => p_rows n (S i) Bi' | _ => Fin Panicked end) l').
  { intros l'. destruct (dbl_n_ok 8 _ _ H) as (r & -> & R). apply IH. change (2 ^ Z.of_nat 8) with 256 in R. rewrite <- zmul_mul in R.
    replace (256 ^ Z.of_nat (S i)) with (256 * 256 ^ Z.of_nat i) by (rewrite Nat2Z.inj_succ, Z.pow_succ_r by lia; ring). exact R. }
  revert N. generalize (match dbl_n 8 Bi with Ok Bi' => p_rows n (S i) Bi' | _ => Fin Panicked end). intros next N.
  cbn zeta. cbn [fine]. intros f l1 L1. destruct f as [t|]; [|exact out_panic]. cbn [fine]. intros l2 L2 f l3 L3.
  destruct f as [t'|]; [|exact out_panic]. cbn [fine]. intros l4 L4. split; [apply N|]. intros r Mr.
  apply fine_cols; [exact H| |intros l5 _; apply N]. change (Z.of_nat 0 + 1) with 1. rewrite Z.mul_1_l. exact H.
Qed.
Lemma fine_single l : fine (p_single c) l.
Proof.
  unfold p_single. cbn [fine]. intros f l1 L1. destruct f; [exact out_returned|]. cbn [fine]. intros f l2 L2. destruct f; [exact out_returned|].
  apply fine_copy. intros l3 L3. cbn [fine]. intros l4 L4 f l5 L5. destruct f; [|exact out_returned]. apply fine_rows.
  change (256 ^ Z.of_nat 0) with 1. rewrite zmul_1. exact Hc.
Qed.
Lemma fine_dcols m : forall j Bi l, repc P3 Bi (zmul (2 * Z.of_nat j + 1) P) -> fine (p_dcols m j c Bi) l.
Proof.
  induction m as [|m IH]; intros j Bi l H; cbn [p_dcols]; [exact out_returned|].
  cbn [fine]. intros f l1 L1. destruct f as [t|]; [|exact out_panic]. cbn [fine]. split; [apply prec_entry_ok; exact H|]. intros l2 L2.
  destruct (add_P3_ok _ _ _ _ Hc H) as (s & -> & Hs). cbn [bind]. destruct (add_P3_ok _ _ _ _ Hc Hs) as (r & -> & Hr).
  apply IH. replace (2 * Z.of_nat (S j) + 1) with (1 + (1 + (2 * Z.of_nat j + 1))) by lia.
  rewrite !zmul_add, !zmul_1. rewrite zmul_add, zmul_1 in Hr. exact Hr.
Qed.
Lemma fine_double l : fine (p_double c) l.
Proof.
  unfold p_double. cbn [fine]. intros f l1 L1. destruct f; [exact out_returned|]. cbn [fine]. intros l2 L2. apply fine_copy. intros l3 L3.
  cbn [fine]. intros f l4 L4. destruct f; [|exact out_returned]. apply fine_dcols. change (2 * Z.of_nat 0 + 1) with 1. rewrite zmul_1. exact Hc.
Qed.
End Out.

(** ** Select *)
Section Sel.
Variable out : outcome -> Prop.
Lemma last_value pos b t j : (j <= 8)%nat -> (j = 0%nat \/ j = 8%nat) -> repc PRECOMPUTED t (zmul (pick b j * 256 ^ pos) P) ->
  good P pos b (rbind (ROk t) (fun t => of_plain (g_cmov t (newPrecomputed (gY t) (gX t) (fe_neg (gZ t))) (is_negative_ct b)))).
Proof.
  intros L J H. destruct (last_good P pos b t j L J H) as (x & E & G). unfold lastk in E.
  apply (f_equal (fun a => match a with Fin (Result y) => y | _ => x end)) in E. rewrite E. exact G.
Qed.
Lemma pick_0 pos b : zmul (pick b 0 * 256 ^ pos) P = pzero.
Proof.
  unfold pick. cbv zeta. replace (_ && _) with false; [rewrite Z.mul_0_l; apply zmul_0|].
  symmetry. apply andb_false_iff. destruct (Z.leb_spec 1 (Z.abs (residue b) mod 256)); [right; apply Z.leb_gt; lia|left; reflexivity].
Qed.
Lemma fine_sloop pos b r : 0 <= pos < 32 -> forall n j t k l, (n + j = 8)%nat -> made l r (Z.to_nat pos) ->
  repc PRECOMPUTED t (zmul (pick b j * 256 ^ pos) P) ->
  (forall x l', incl l l' -> good P pos b (rbind x (fun t => of_plain (g_cmov t (newPrecomputed (gY t) (gX t) (fe_neg (gZ t))) (is_negative_ct b)))) -> fine out (k x) l') ->
  fine out (p_select_loop n j r (abs_of b) t k) l.
Proof.
  intros Hp. induction n as [|n IH]; intros j t k l Hn M R K; cbn [p_select_loop].
  - apply K; [apply incl_refl|]. assert (j = 8%nat) by lia. apply (last_value pos b t j); [lia|right; assumption|exact R].
  - cbn [fine]. intros l1 L1.
    assert (D : 0 <= Z.abs (residue b) mod 256 < 256) by (apply Z.mod_pos_bound; lia).
    assert (Go : forall t1, repc PRECOMPUTED t1 (zmul (pick b (S j) * 256 ^ pos) P) -> fine out (p_select_loop n (S j) r (abs_of b) t1 k) l1).
    { intros t1 R1. apply IH; [lia|exact (made_mono _ _ _ _ L1 M)|exact R1|]. intros x l2 L2 G. apply K; [exact (incl_tran L1 L2)|exact G]. }
    unfold byte_eq_int. rewrite byte_eq_exact. unfold abs_of at 1 3. rewrite residue_abs.
    rewrite (Z.mod_small (Z.of_nat j + 1)) by lia. unfold pick in R, Go. cbv zeta in R, Go.
    destruct (Z.eqb_spec (Z.abs (residue b) mod 256) (Z.of_nat j + 1)) as [Q|Q]; unfold r_cmov; cbn [Z.eqb Pos.eqb].
    + split.
      * apply K; [exact L1|]. cbn [rbind]. right. left. reflexivity.
      * intros e He. apply Go. rewrite Q. rewrite (proj2 (Z.leb_le 1 _)) by lia. rewrite (proj2 (Z.leb_le (Z.of_nat j + 1) _)) by lia. cbn [andb].
        pose proof (He _ (made_mono _ _ _ _ L1 M)) as Re. unfold entry in Re. rewrite Z2Nat.id in Re by lia. exact Re.
    + assert (R2 : fine out (p_select_loop n (S j) r (abs_of b) t k) l1).
      { apply Go. replace ((1 <=? Z.abs (residue b) mod 256) && (Z.abs (residue b) mod 256 <=? Z.of_nat (S j)))
          with ((1 <=? Z.abs (residue b) mod 256) && (Z.abs (residue b) mod 256 <=? Z.of_nat j)); [exact R|].
        apply f_equal. destruct (Z.leb_spec (Z.abs (residue b) mod 256) (Z.of_nat j)), (Z.leb_spec (Z.abs (residue b) mod 256) (Z.of_nat (S j))); try reflexivity; lia. }
      split; [exact R2|]. intros e He. exact R2.
Qed.
Lemma fine_select pos b k l : (forall x l', incl l l' -> good P pos b x -> fine out (k x) l') -> fine out (p_select pos b k) l.
Proof.
  intros K. unfold p_select. fold (abs_of b). cbn zeta. cbn [fine]. intros f l1 L1. destruct f as [t|]; [|apply K; [exact L1|left; reflexivity]].
  destruct (Z.ltb_spec pos 0); cbn [orb]; [apply K; [exact L1|left; reflexivity]|].
  destruct (Z.leb_spec 32 pos); [apply K; [exact L1|left; reflexivity]|].
  assert (Z0 : repc PRECOMPUTED zero_precomputed (zmul (pick b 0 * 256 ^ pos) P)) by (rewrite pick_0; apply zero_prec_rep).
  cbn [fine]. intros l2 L2. split.
  - apply K; [exact (incl_tran L1 L2)|]. apply (last_value pos b zero_precomputed 0); [lia|left; reflexivity|exact Z0].
  - intros r Mr. apply (fine_sloop pos b r); [lia|reflexivity|exact Mr|exact Z0|].
    intros x l3 L3 G. apply K; [exact (incl_tran L1 (incl_tran L2 L3))|exact G].
Qed.

(** ** ScalarMultiply *)
Lemma digit_sel d : -8 <= d <= 16 -> digit d = sel d.
Proof.
  intros H. unfold digit, sel, residue. replace ((d + 256) mod 512 - 256) with d by (rewrite Z.mod_small by lia; lia).
  destruct (Z.leb_spec (Z.abs d) 8), (Z.leb_spec d 8); try reflexivity; lia.
Qed.
Definition part (e : list Z) (kp : nat -> bool) (is : list nat) : Z := dsum (fun i => if kp i then sel (nth i e 0) * 256 ^ Z.of_nat (i / 2) else 0) is.
Definition added (e : list Z) (is : list nat) (Q : point) (x : rres gcore) : Prop :=
  x = RPanic \/ x = RNil \/ exists r kp, x = ROk r /\ repc P3 r (padd Q (zmul (part e kp is) P)).
Lemma fine_sm e : forall is h Q k l, NoDup is -> repc P3 h Q -> (forall i, In i is -> (i < 64)%nat /\ -8 <= nth i e 0 <= 16) ->
  (forall x l', incl l l' -> added e is Q x -> fine out (k x) l') -> fine out (p_sm_loop e is h k) l.
Proof.
  induction is as [|i is IH]; intros h Q k l ND H HI K; cbn [p_sm_loop].
  - apply K; [apply incl_refl|]. right. right. exists h, (fun _ => true). split; [reflexivity|]. unfold part. cbn [dsum]. now rewrite zmul_0, padd_0_r.
  - inversion ND as [|? ? N1 N2]; subst. apply fine_select. intros s l1 L1 G.
    destruct (HI i (or_introl eq_refl)) as [Hi Hd].
    destruct G as [->|[->|(s' & -> & G)]]; [cbn [rbind]; apply K; [exact L1|left; reflexivity]|cbn [rbind]; apply K; [exact L1|right; left; reflexivity]|].
    cbn [rbind].
    assert (B : exists b : bool, repc PRECOMPUTED s' (zmul (if b then sel (nth i e 0) * 256 ^ Z.of_nat (i / 2) else 0) P)).
    { destruct G as [G|G]; [exists true|exists false].
      - rewrite digit_sel in G by exact Hd. exact G.
      - rewrite zmul_0. exact G. }
    destruct B as (b & B). destruct (g_precomputedAdd_ok _ _ _ _ H B) as (t & -> & T). cbn [bind].
    destruct (to_P3_P1 _ _ T) as (h' & -> & H'). cbn [of_plain].
    apply (IH h' _ k l1 N2 H'); [intros i' Hi'; apply HI; right; exact Hi'|].
    intros x l2 L2 [->|[->|(r & kp & -> & R)]]; (apply K; [exact (incl_tran L1 L2)|]); [left; reflexivity|right; left; reflexivity|].
    right. right. exists r, (fun n => if Nat.eqb n i then b else kp n). split; [reflexivity|].
    unfold part in *. cbn [dsum]. rewrite Nat.eqb_refl.
    rewrite (dsum_ext _ (fun i0 => if kp i0 then sel (nth i0 e 0) * 256 ^ Z.of_nat (i0 / 2) else 0)).
    + rewrite zmul_add, <- padd_assoc. exact R.
    + intros i0 I0. destruct (Nat.eqb_spec i0 i) as [->|]; [contradiction|reflexivity].
Qed.
Definition product (a : bytes) (o : outcome) : Prop :=
  failed o \/ exists d keep r, o = Result (ROk r) /\ signed_digits (le_val (firstn 32 a)) d /\ length keep = 64%nat /\
    (8 < nth 63 d 0 -> nth 63 keep true = false) /\ repc P3 r (zmul (kept keep d) P).
End Sel.
Lemma kept_dv : forall (f : nat -> bool) d s, kept (map f (seq s (length d))) d =
  dv 16 (map (fun i => if f i then nth (i - s) d 0 else 0) (seq s (length d))).
Proof.
  intros f. induction d as [|x d IH]; intros s; cbn [length seq map kept dv]; [reflexivity|].
  rewrite IH. rewrite Nat.sub_diag. cbn [nth]. f_equal. f_equal. f_equal. apply map_ext_in. intros i Hi. apply in_seq in Hi.
  destruct (f i); [|reflexivity]. replace (i - s)%nat with (S (i - S s)) by lia. reflexivity.
Qed.
Lemma kept_all d : kept (repeat true (length d)) d = dv 16 d.
Proof. induction d as [|x d IH]; cbn [length repeat kept dv]; [reflexivity|]. rewrite IH. reflexivity. Qed.
Lemma nodup_map (f : nat -> nat) n : (forall a b, f a = f b -> a = b) -> NoDup (map f (seq 0 n)).
Proof. intros H. apply FinFun.Injective_map_NoDup; [exact H|apply seq_NoDup]. Qed.
Lemma fine_reader (out : outcome -> Prop) a : (forall o, out o) -> reader a -> forall l, fine out a l.
Proof.
  intros O. induction a as [o|k IH|k IH|k IH|k IH|t i k IH|t i k IH|r j k IH|r j e k IH|t j e k IH]; cbn [reader]; intros R l; try contradiction; cbn [fine].
  - apply O.
  - intros f l' _. apply IH, R.
  - intros f l' _. apply IH, R.
  - intros l' _. split; [|intros r _]; apply IH, R.
  - intros l' _. split; [|intros e _]; apply IH, R.
Qed.
Lemma wf_dec a : wf_bytes a \/ ~ wf_bytes a.
Proof.
  induction a as [|x a [IH|IH]]; [left; constructor| |right; intros Q; inversion Q; contradiction].
  destruct (Z_le_dec 0 x), (Z_lt_dec x 256); [left; constructor; [unfold is_byte; lia|exact IH]|right; intros Q; inversion Q as [|? ? Q1 Q2]; unfold is_byte in Q1; lia..].
Qed.
Definition product_if (a : bytes) (o : outcome) : Prop := wf_bytes a -> product a o.
Lemma fine_multiply a l : fine (product_if a) (p_scalar_multiply a) l.
Proof.
  destruct (wf_dec a) as [W|W].
  2:{ apply fine_reader; [intros o Q; contradiction|]. exact (program_reader c (CMultiply a) ltac:(discriminate) ltac:(discriminate)). }
  unfold p_scalar_multiply.
  destruct (Nat.ltb_spec (length a) 32) as [L|L].
  { unfold to_radix16. rewrite (proj2 (Nat.ltb_lt _ _) L). cbn [of_plain rbind fine]. intros _. left. right. left. reflexivity. }
  destruct (to_radix16_ok a W L) as (e & -> & Le & De & D1 & D2 & _).
  assert (K : forall i, (i < 64)%nat -> (i < 64)%nat /\ -8 <= nth i e 0 <= 16).
  { intros i Hi. split; [exact Hi|]. destruct (Nat.eq_dec i 63) as [->|]; [lia|]. specialize (D1 i ltac:(lia)). lia. }
  apply (fine_sm _ e _ _ pzero); [apply nodup_map; lia|apply zero_P3_rep| |].
  { intros i Hi. apply in_map_iff in Hi as (k & <- & Hk). apply in_seq in Hk. apply K. lia. }
  intros x l1 _ [->|[->|(h & kp & -> & H)]]; [cbn [rbind fine]; intros _; left; right; left; reflexivity|cbn [rbind fine]; intros _; left; right; right; reflexivity|].
  cbn [rbind]. rewrite padd_0_l in H.
  destruct (g_dbl_P3 _ _ H) as (d1 & -> & H1). cbn [bind]. destruct (to_P2_P1 _ _ H1) as (h1 & -> & G1). cbn [bind].
  destruct (g_dbl_P2 _ _ G1) as (d2 & -> & H2). cbn [bind]. destruct (to_P2_P1 _ _ H2) as (h2 & -> & G2). cbn [bind].
  destruct (g_dbl_P2 _ _ G2) as (d3 & -> & H3). cbn [bind]. destruct (to_P2_P1 _ _ H3) as (h3 & -> & G3). cbn [bind].
  destruct (g_dbl_P2 _ _ G3) as (d4 & -> & H4). cbn [bind]. destruct (to_P3_P1 _ _ H4) as (h4 & -> & G4). cbn [of_plain].
  rewrite <- !zmul_2, <- !zmul_mul in G4.
  apply (fine_sm _ e _ _ _ _ _ (nodup_map (fun k => 2 * k)%nat 32 ltac:(intros a0 b0 Q; cbv beta in Q; lia)) G4).
  { intros i Hi. apply in_map_iff in Hi as (k & <- & Hk). apply in_seq in Hk. apply K. lia. }
  intros x l2 _ [->|[->|(r & kp' & -> & R)]]; [cbn [fine]; intros _; left; right; left; reflexivity|cbn [fine]; intros _; left; right; right; reflexivity|].
  cbn [fine]. intros _. right.
  set (f := fun i => (if Nat.odd i then kp i else kp' i) && (nth i e 0 <=? 8)).
  exists e, (map f (seq 0 64)), r. split; [reflexivity|]. split; [|split; [|split]].
  - split; [exact Le|]. split; [rewrite <- De, <- Le; apply kept_all|]. split; [exact D1|exact D2].
  - rewrite map_length, seq_length. reflexivity.
  - intros Q. rewrite (nth_indep _ true (f 0%nat)) by (rewrite map_length, seq_length; lia). rewrite map_nth, seq_nth by lia.
    unfold f. change (0 + 63)%nat with 63%nat. rewrite (proj2 (Z.leb_gt _ _) Q). apply andb_false_r.
  - rewrite <- Le, kept_dv, Le. rewrite <- zmul_add in R.
    rewrite (dv_pairs 32) by (rewrite map_length, seq_length; reflexivity).
    match goal with R : repc P3 r (zmul ?u P) |- repc P3 r (zmul ?v P) => replace v with u; [exact R|] end.
    unfold part. rewrite !dsum_map. rewrite <- !dsum_mul, <- dsum_add. apply dsum_ext. intros k Hk. apply in_seq in Hk.
    assert (N : forall i, (i < 64)%nat -> nth i (map (fun i => if f i then nth (i - 0) e 0 else 0) (seq 0 64)) 0 = if f i then nth i e 0 else 0).
    { intros i Hi. set (u := fun i => if f i then nth (i - 0) e 0 else 0).
      rewrite (nth_indep _ 0 (u 0%nat)) by (rewrite map_length, seq_length; lia).
      rewrite (map_nth u), seq_nth by lia. change (0 + i)%nat with i. unfold u. rewrite Nat.sub_0_r. reflexivity. }
    rewrite !N by lia. unfold f. rewrite Nat.odd_add, !Nat.odd_mul. cbn [Nat.odd Nat.even negb andb xorb].
    replace ((2 * k + 1) / 2)%nat with k by (apply Nat.div_unique with 1%nat; lia).
    replace ((2 * k) / 2)%nat with k by (apply Nat.div_unique with 0%nat; lia). unfold sel.
    destruct (kp (2 * k + 1)%nat), (kp' (2 * k)%nat), (nth (2 * k + 1) e 0 <=? 8), (nth (2 * k) e 0 <=? 8); cbn [andb]; ring.
Qed.

(** ** All calls *)
Definition ends (x : call) (o : outcome) : Prop :=
  match x with
  | CSingle | CDouble => o = Returned \/ o = Panicked
  | CIsDouble => o = Panicked \/ exists b, o = Answer b
  | CSelect pos b => failed o \/ exists r, o = Result (ROk r) /\ (repc PRECOMPUTED r (zmul (digit b * 256 ^ pos) P) \/ repc PRECOMPUTED r pzero)
  | CMultiply a => product_if a o
  end.
Lemma ends_panic x : ends x Panicked.
Proof. destruct x; cbn [ends]; try tauto; [left; left; reflexivity|intros _; left; left; reflexivity]. Qed.
Lemma fine_program x l : fine (ends x) (program c x) l.
Proof.
  destruct x as [| | |pos b|a]; cbn [program ends].
  - apply fine_single; [right; reflexivity|left; reflexivity].
  - apply fine_double; [right; reflexivity|left; reflexivity].
  - unfold p_is_double. cbn [fine]. intros f l' _. right. eexists. reflexivity.
  - apply fine_select. intros x l' _ [->|[->|(r & -> & G)]]; cbn [fine]; [left; right; left; reflexivity|left; right; right; reflexivity|].
    right. exists r. split; [reflexivity|exact G].
  - apply fine_multiply.
Qed.
Record WInv (s : weak) : Prop := {
  wi_sound : sound (stores s);
  wi_calls : forall x a n, In (x, a, n) (calls s) -> fine (ends x) a (stores s) }.
Lemma inv_move s s' : WInv s -> wmove c s s' -> WInv s'.
Proof.
  intros [I1 I2] M. destruct M as [l ts x|l ts ts' x a n l' a' W]; cbn [stores calls] in *.
  - constructor; cbn [stores calls]; [exact I1|]. intros y a n H. apply in_app_or in H as [H|[H|[]]]; [apply (I2 _ _ _ H)|].
    injection H as <- <- <-. apply fine_program.
  - destruct (fine_step (ends x) (ends_panic x) l a l' a' I1 (I2 x a n ltac:(apply in_or_app; right; left; reflexivity)) W) as (S' & L & F').
    constructor; cbn [stores calls]; [exact S'|]. intros y b m H. apply in_app_or in H as [H|[H|H]].
    + apply (fine_mono _ _ _ _ L). apply (I2 y b m). apply in_or_app. left. exact H.
    + injection H as <- <- <-. exact F'.
    + apply (fine_mono _ _ _ _ L). apply (I2 y b m). apply in_or_app. right. right. exact H.
Qed.
Lemma inv_moves s : wmoves c wblank s -> WInv s.
Proof.
  intros M. induction M as [|s1 s2 M IH W].
  - constructor; [constructor; cbn [In wblank stores]; intros; contradiction|]; cbn [wblank stores calls]; intros; contradiction.
  - exact (inv_move _ _ IH W).
Qed.
End W.
