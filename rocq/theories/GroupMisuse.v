(** Calls of the group operations on elements in coordinate systems they do not accept. *)
From Coq Require Import List ZArith Bool.
From Verif Require Import GoBase FieldModel GroupModel.

Lemma csys_eqb_true a b : csys_eqb a b = true -> a = b.
Proof. destruct a, b; intros H; try reflexivity; discriminate H. Qed.
Lemma csys_eqb_neq a b : a <> b -> csys_eqb a b = false.
Proof. intros H. destruct (csys_eqb a b) eqn:E; [elim (H (csys_eqb_true a b E))|reflexivity]. Qed.
Lemma csys_eqb_same a : csys_eqb a a = true.
Proof. destruct a; reflexivity. Qed.
Lemma csys_dec (a b : csys) : a = b \/ a <> b.
Proof. destruct (csys_eqb a b) eqn:E; [left; apply csys_eqb_true; exact E|right]. intros ->. rewrite csys_eqb_same in E. discriminate E. Qed.

Lemma add_misuse g h : g_cs g <> P3 \/ g_cs h <> CACHED -> g_add g h = Panic /\ g_subtract g h = Panic.
Proof.
  intros H. unfold g_add, g_subtract. destruct (csys_dec (g_cs g) P3) as [E|E].
  - destruct H as [H|H]; [elim (H E)|]. rewrite E, (csys_eqb_neq _ _ H). split; reflexivity.
  - rewrite (csys_eqb_neq _ _ E). split; reflexivity.
Qed.
Lemma psub_misuse g h : g_cs g <> P3 \/ g_cs h <> PRECOMPUTED -> g_precomputedSubtract g h = Panic.
Proof.
  intros H. unfold g_precomputedSubtract. destruct (csys_dec (g_cs g) P3) as [E|E].
  - destruct H as [H|H]; [elim (H E)|]. rewrite E, (csys_eqb_neq _ _ H). reflexivity.
  - rewrite (csys_eqb_neq _ _ E). reflexivity.
Qed.
Lemma padd_misuse g h :
  (g_cs g <> P3 -> g_precomputedAdd g h = Err ErrUnsupported) /\
  (g_cs g = P3 -> g_cs h <> PRECOMPUTED -> g_precomputedAdd g h = Err ErrIllegalArgument).
Proof.
  unfold g_precomputedAdd. split.
  - intros H. rewrite (csys_eqb_neq _ _ H). reflexivity.
  - intros E H. rewrite E, (csys_eqb_neq _ _ H). reflexivity.
Qed.
Lemma one_misuse g : (g_cs g <> P2 -> g_cs g <> P3 -> g_dbl g = Panic) /\ (g_cs g <> P3 -> g_negate g = Err ErrUnsupported).
Proof.
  split.
  - unfold g_dbl. intros H K. destruct (g_cs g); try reflexivity; [elim H|elim K]; reflexivity.
  - unfold g_negate. intros H. rewrite (csys_eqb_neq _ _ H). reflexivity.
Qed.
Lemma misuse g h :
  (g_cs g <> P3 \/ g_cs h <> CACHED -> g_add g h = Panic /\ g_subtract g h = Panic) /\
  (g_cs g <> P3 \/ g_cs h <> PRECOMPUTED -> g_precomputedSubtract g h = Panic) /\
  (g_cs g <> P3 -> g_precomputedAdd g h = Err ErrUnsupported) /\
  (g_cs g = P3 -> g_cs h <> PRECOMPUTED -> g_precomputedAdd g h = Err ErrIllegalArgument) /\
  (g_cs g <> P2 -> g_cs g <> P3 -> g_dbl g = Panic) /\
  (g_cs g <> P3 -> g_negate g = Err ErrUnsupported).
Proof. exact (conj (add_misuse g h) (conj (psub_misuse g h) (conj (proj1 (padd_misuse g h)) (conj (proj2 (padd_misuse g h)) (one_misuse g))))). Qed.
Lemma equals_affine r g : g_cs r = AFFINE -> (g_cs g = AFFINE -> g_equals r g = Panic) /\ (g_cs g <> AFFINE -> g_equals r g = Ok false).
Proof.
  intros E. unfold g_equals, to_cs. rewrite E. split.
  - intros F. rewrite F. reflexivity.
  - intros F. rewrite csys_eqb_neq by (intros H; apply F; symmetry; exact H). destruct (g_cs g); reflexivity.
Qed.
