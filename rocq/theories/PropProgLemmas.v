(** Proofs for C76. *)
From Coq Require Import List ZArith Lia Bool Ring Field.
From Verif Require Import GoBase FieldModel FieldSpec GroupModel GroupSpec Primality Fp Curve BasePoint ScalarSpec ApiModel TextModel TextSpec
  ByteLemmas GroupProofs PointCodec ScalarMul SlideProofs SlideExact TableProofs ApiProofs PropGroupLemmas PropTextLemmas ProgModel ProgSpec.
Import ListNotations.
Open Scope Z_scope.

(** ** Machines with related calls *)
Section Related.
Context {E F : Type} (R : E -> F -> Prop).
Definition rel (a : res E) (b : res F) : Prop :=
  match a, b with Ok x, Ok y => R x y | Err e, Err e' => e = e' | Panic, Panic => True | _, _ => False end.
Definition related (i : instr) (p : ops E) (q : ops F) : Prop :=
  match i with
  | IConst k => rel (o_const p k) (o_const q k)
  | IDecode raw => rel (o_decode p raw) (o_decode q raw)
  | ICopy _ => forall g x, R g x -> rel (o_copy p g) (o_copy q x)
  | ITo _ c => forall g x, R g x -> rel (o_to p g c) (o_to q x c)
  | IDbl _ => forall g x, R g x -> rel (o_dbl p g) (o_dbl q x)
  | INegate _ => forall g x, R g x -> rel (o_negate p g) (o_negate q x)
  | IBin o _ _ => forall g x h y, R g x -> R h y -> rel (o_bin p o g h) (o_bin q o x y)
  | ISelect _ pos b => forall g x, R g x -> rel (o_select p g pos b) (o_select q x pos b)
  | IMul _ a => forall g x, R g x -> rel (o_mul p g a) (o_mul q x a)
  | IDoubleMul _ _ a b => forall g x h y, R g x -> R h y -> rel (o_dmul p g h a b) (o_dmul q x y a b)
  | IPrecompute k _ => forall g x, R g x -> rel (o_precompute p k g) (o_precompute q k x)
  | IEquals _ _ => forall g x h y, R g x -> R h y -> o_equals p g h = o_equals q x y
  | IEncode _ => forall g x, R g x -> o_encode p g = o_encode q x
  | ISatisfies _ => forall g x, R g x -> o_satisfies p g = o_satisfies q x
  | IIsPrecomputed _ => forall g x, R g x -> o_is_precomputed p g = o_is_precomputed q x
  end.
Definition same (a : list E * reply) (b : list F * reply) : Prop := Forall2 R (fst a) (fst b) /\ snd a = snd b.
Lemma push_same vs ws a b : Forall2 R vs ws -> rel a b -> same (push vs a) (push ws b).
Proof.
  intros H. unfold rel, push, same. destruct a as [x|e|], b as [y|e'|]; cbn [fst snd]; intros K; try contradiction.
  - split; [|reflexivity]. apply Forall2_app; [exact H|]. constructor; [exact K|constructor].
  - subst. auto.
  - auto.
Qed.
Lemma assign_same vs ws x y : Forall2 R vs ws -> R x y -> forall r, Forall2 R (assign vs r x) (assign ws r y).
Proof. intros H K. induction H; intros [|r]; cbn [assign]; constructor; auto. Qed.
Lemma update_same vs ws r a b : Forall2 R vs ws -> rel a b -> same (update vs r a) (update ws r b).
Proof.
  intros H. unfold rel, update, same. destruct a as [x|e|], b as [y|e'|]; cbn [fst snd]; intros K; try contradiction.
  - split; [|reflexivity]. now apply assign_same.
  - subst. auto.
  - auto.
Qed.
Lemma observe_same {A} (f : A -> reply) vs ws (a b : res A) : Forall2 R vs ws -> a = b -> same (observe f vs a) (observe f ws b).
Proof. intros H ->. unfold observe, same. destruct b; cbn [fst snd]; auto. Qed.
Lemma on_same vs ws r f g : Forall2 R vs ws -> (forall x y, R x y -> same (f x) (g y)) -> same (on vs r f) (on ws r g).
Proof.
  intros H K. unfold on. assert (N : match nth_error vs r, nth_error ws r with Some x, Some y => R x y | None, None => True | _, _ => False end).
  { clear K. revert r. induction H as [|a b l m X H IH]; intros [|r]; cbn; [exact I|exact I|exact X|apply IH]. }
  destruct (nth_error vs r), (nth_error ws r); try contradiction; [now apply K|]. split; [exact H|reflexivity].
Qed.
Lemma exec_same p q i vs ws : related i p q -> Forall2 R vs ws -> same (exec p i vs) (exec q i ws).
Proof.
  intros K H. destruct i; cbn [exec related] in *.
  - now apply push_same.
  - now apply push_same.
  - apply on_same; [exact H|]. intros x y X. apply push_same; auto.
  - apply on_same; [exact H|]. intros x y X. apply push_same; auto.
  - apply on_same; [exact H|]. intros x y X. apply push_same; auto.
  - apply on_same; [exact H|]. intros x y X. apply push_same; auto.
  - apply on_same; [exact H|]. intros x y X. apply on_same; [exact H|]. intros x' y' X'. apply push_same; auto.
  - apply on_same; [exact H|]. intros x y X. apply push_same; auto.
  - apply on_same; [exact H|]. intros x y X. apply push_same; auto.
  - apply on_same; [exact H|]. intros x y X. apply on_same; [exact H|]. intros x' y' X'. apply push_same; auto.
  - apply on_same; [exact H|]. intros u v X. apply update_same; auto.
  - apply on_same; [exact H|]. intros x y X. apply on_same; [exact H|]. intros x' y' X'. apply observe_same; auto.
  - apply on_same; [exact H|]. intros x y X. apply observe_same; auto.
  - apply on_same; [exact H|]. intros x y X. apply observe_same; auto.
  - apply on_same; [exact H|]. intros x y X. split; [exact H|]. cbn [snd]. f_equal. auto.
Qed.
Lemma replies_same p q (ok : instr -> Prop) : (forall i, ok i -> related i p q) ->
  forall pr, Forall ok pr -> forall vs ws, Forall2 R vs ws -> replies p pr vs = replies q pr ws.
Proof.
  intros K. induction 1 as [|i pr Hi Hp IH]; intros vs ws H; [reflexivity|]. cbn [replies].
  destruct (exec_same p q i vs ws (K i Hi) H) as [A B].
  destruct (exec p i vs) as [vs' o], (exec q i ws) as [ws' o']. cbn [fst snd] in A, B. subst o'.
  f_equal. destruct o; auto.
Qed.
End Related.

(** ** Elements and points *)
Definition stab (o : option (list (list gcore))) (t : table) (P : point) : Prop :=
  match t with Missing => o = None | Empty => o = Some [] | Full => exists rows, o = Some rows /\ single_table rows P end.
Definition dtab (o : option (list gcore)) (t : table) (P : point) : Prop :=
  match t with Missing => o = None | Empty => o = Some [] | Full => exists l, o = Some l /\ double_table l P end.
Definition stands (g : ge) (x : elem) : Prop :=
  repc (e_cs x) (core g) (e_pt x) /\ e_cs x <> AFFINE /\ stab (single g) (e_single x) (e_pt x) /\ dtab (double g) (e_double x) (e_pt x).
Lemma plain_stands c P r : repc c r P -> c <> AFFINE -> stands (new_ge r) (plain c P).
Proof. intros H N. repeat split; cbn; auto; apply H. Qed.
Lemma new_ok c P (r : res gcore) : c <> AFFINE -> (exists g, r = Ok g /\ repc c g P) -> rel stands (new_of r) (Ok (plain c P)).
Proof. intros N (g & -> & H). cbn [new_of bind rel]. now apply plain_stands. Qed.
Lemma new_panic : forall r : res gcore, r = Panic -> rel stands (new_of r) Panic.
Proof. intros r ->. exact I. Qed.
Lemma converts_eq a b : converts a b = convertible a b.
Proof. destruct a, b; reflexivity. Qed.

(** *** the calls one by one *)
Lemma const_rel pt k : rel stands (o_const go_ops k) (o_const (point_ops pt) k).
Proof.
  destruct k; cbn [go_ops point_ops o_const].
  - apply plain_stands; [apply zero_P2_rep|discriminate].
  - apply plain_stands; [apply zero_P3_rep|discriminate].
  - apply plain_stands; [apply zero_prec_rep|discriminate].
  - destruct base_point_ok as (c & -> & H). cbn [rel]. split; [exact H|]. split; [discriminate|].
    split; [exists base_single; split; [reflexivity|exact base_single_ok]|exists base_double; split; [reflexivity|exact base_double_ok]].
Qed.
Lemma decode_rel pt : finds_points pt -> forall raw, wf_bytes raw ->
  rel stands (o_decode go_ops raw) (o_decode (point_ops pt) raw).
Proof.
  intros HF raw W. cbn [go_ops point_ops o_decode]. unfold new_ege. destruct (Nat.eqb (length raw) 32) eqn:L; [|exact eq_refl].
  cbn [bind]. apply Nat.eqb_eq in L. destruct (g_decode_ok raw W (or_introl L)) as [(P & g & D & E & H)|(N & E)]; rewrite E.
  - rewrite (proj2 (HF raw W L P) D). cbn [new_of bind rel]. apply plain_stands; [exact H|discriminate].
  - destruct (pt raw) as [P|] eqn:Ep; [|exact eq_refl]. exfalso. apply (N P), (HF raw W L P), Ep.
Qed.
Lemma copy_rel pt g x : stands g x -> rel stands (o_copy go_ops g) (o_copy (point_ops pt) x).
Proof.
  intros (H & N & S & D). cbn [go_ops point_ops o_copy].
  assert (C : exists s, copy_rows (match single g with Some t => t | None => [] end) = Ok s /\ stab (Some s) (p_copied (e_single x)) (e_pt x)).
  { destruct (e_single x); cbn [stab p_copied] in *.
    - rewrite S. exists []. auto.
    - rewrite S. exists []. auto.
    - destruct S as (rows & -> & T). exists rows. split; [|exists rows; auto]. apply copy_rows_8. intros i row Hi. apply (proj2 T i row Hi). }
  destruct C as (s & C & T). unfold g_copy. rewrite C. cbn [bind rel]. split; [exact H|]. split; [exact N|]. split; [exact T|].
  cbn [e_double double e_pt]. destruct (e_double x); cbn [dtab p_copied] in *; try (rewrite D; reflexivity).
  destruct D as (l & -> & D). exists l. auto.
Qed.
Lemma to_rel pt g x c : stands g x -> rel stands (o_to go_ops g c) (o_to (point_ops pt) x c).
Proof.
  intros (H & N & _). cbn [go_ops point_ops o_to]. rewrite converts_eq. rewrite <- (proj1 H).
  destruct (convertible (g_cs (core g)) c) eqn:C.
  - apply new_ok; [|exact (to_cs_ok _ _ _ (proj2 H) C)]. intros ->. destruct (g_cs (core g)); discriminate C.
  - apply new_panic. now apply to_cs_panic.
Qed.
Lemma dbl_rel pt g x : stands g x -> rel stands (o_dbl go_ops g) (o_dbl (point_ops pt) x).
Proof.
  intros (H & N & _). cbn [go_ops point_ops o_dbl]. destruct (e_cs x) eqn:C.
  - apply new_panic. unfold g_dbl. now rewrite (proj1 H).
  - apply new_ok; [discriminate|]. now apply g_dbl_P2.
  - apply new_ok; [discriminate|]. now apply g_dbl_P3.
  - apply new_panic. unfold g_dbl. now rewrite (proj1 H).
  - apply new_panic. unfold g_dbl. now rewrite (proj1 H).
  - apply new_panic. unfold g_dbl. now rewrite (proj1 H).
Qed.
Lemma negate_rel pt g x : stands g x -> rel stands (o_negate go_ops g) (o_negate (point_ops pt) x).
Proof.
  intros (H & N & _). cbn [go_ops point_ops o_negate]. destruct (is_P3 (e_cs x)) eqn:C.
  - assert (e_cs x = P3) as C' by (destruct (e_cs x); (discriminate C || reflexivity)). rewrite C' in H.
    apply new_ok; [discriminate|]. now apply g_negate_ok.
  - unfold g_negate. rewrite (proj1 H). destruct (e_cs x); try discriminate C; exact eq_refl.
Qed.
Lemma bin_rel pt o g x h y : stands g x -> stands h y -> rel stands (o_bin go_ops o g h) (o_bin (point_ops pt) o x y).
Proof.
  intros (H & _) (K & _). cbn [go_ops point_ops o_bin]. unfold p_bin. destruct o.
  - destruct (e_cs x) eqn:C; try (apply new_panic; unfold g_add; rewrite (proj1 H); reflexivity).
    destruct (e_cs y) eqn:D; try (apply new_panic; unfold g_add; rewrite (proj1 H), (proj1 K); reflexivity).
    apply new_ok; [discriminate|]. now apply g_add_ok.
  - destruct (e_cs x) eqn:C; try (apply new_panic; unfold g_subtract; rewrite (proj1 H); reflexivity).
    destruct (e_cs y) eqn:D; try (apply new_panic; unfold g_subtract; rewrite (proj1 H), (proj1 K); reflexivity).
    apply new_ok; [discriminate|]. now apply g_subtract_ok.
  - destruct (e_cs x) eqn:C; try (unfold g_precomputedAdd; rewrite (proj1 H); exact eq_refl).
    destruct (e_cs y) eqn:D; try (unfold g_precomputedAdd; rewrite (proj1 H), (proj1 K); exact eq_refl).
    apply new_ok; [discriminate|]. now apply g_precomputedAdd_ok.
  - destruct (e_cs x) eqn:C; try (apply new_panic; unfold g_precomputedSubtract; rewrite (proj1 H); reflexivity).
    destruct (e_cs y) eqn:D; try (apply new_panic; unfold g_precomputedSubtract; rewrite (proj1 H), (proj1 K); reflexivity).
    apply new_ok; [discriminate|]. now apply g_precomputedSubtract_ok.
Qed.
Lemma full_iff t : is_full t = true -> t = Full.
Proof. destruct t; intros; (discriminate || reflexivity). Qed.
Lemma not_full_rows o t P : stab o t P -> is_full t = false -> o = None \/ o = Some [].
Proof. destruct t; cbn; intros H E; auto. discriminate E. Qed.
Lemma select_rel pt g x pos b : stands g x -> rel stands (o_select go_ops g pos b) (o_select (point_ops pt) x pos b).
Proof.
  intros (H & _ & S & _). cbn [go_ops point_ops o_select].
  destruct (is_full (e_single x)) eqn:F; cbn [andb].
  - apply full_iff in F. rewrite F in S. destruct S as (rows & Es & T).
    destruct (Z.leb_spec 0 pos); cbn [andb]; [|apply new_panic, select_panics; now left].
    destruct (Z.ltb_spec pos 32).
    + apply new_ok; [discriminate|]. apply (select_exact g rows); auto.
    + apply new_panic, select_panics. right; right. exists rows. split; [exact Es|]. destruct T as [L _]. rewrite L. exact H1.
  - apply new_panic, select_panics. destruct (Z.ltb_spec pos 0); [now left|]. right.
    destruct (not_full_rows _ _ _ S F) as [E|E]; [now left|right]. exists []. split; [exact E|]. cbn. lia.
Qed.
Lemma mul_rel pt g x a : wf_bytes a -> stands g x -> rel stands (o_mul go_ops g a) (o_mul (point_ops pt) x a).
Proof.
  intros W (H & _ & S & _). cbn [go_ops point_ops o_mul]. unfold long.
  destruct (Nat.leb_spec 32 (length a)) as [L|L]; rewrite ?andb_true_r, ?andb_false_r.
  - destruct (is_full (e_single x)) eqn:F.
    + apply full_iff in F. rewrite F in S. destruct S as (rows & Es & T).
      apply new_ok; [discriminate|]. exact (scalar_mult_every g rows (e_pt x) a Es T W L).
    + apply new_panic. destruct (not_full_rows _ _ _ S F) as [E|E];
        unfold g_scalarMultiply, to_radix16; rewrite (proj2 (Nat.ltb_ge _ _) L); cbn [bind seq map sm_loop];
        unfold sm_step at 1, g_select at 1; rewrite E; reflexivity.
  - apply new_panic. unfold g_scalarMultiply, to_radix16. now rewrite (proj2 (Nat.ltb_lt _ _) L).
Qed.
Lemma precompute_rel pt k g x : stands g x -> rel stands (o_precompute go_ops k g) (o_precompute (point_ops pt) k x).
Proof.
  intros (H & N & S & D). cbn [go_ops point_ops o_precompute]. destruct k; cbn [pstep].
  - destruct (e_single x) eqn:Es; cbn [stab] in S.
    + unfold g_precompute_single. rewrite S. unfold g_copy. rewrite S. cbn [copy_rows bind core].
      destruct (is_P3 (e_cs x)) eqn:C.
      * assert (e_cs x = P3) as C' by (destruct (e_cs x); (discriminate C || reflexivity)). rewrite C' in H.
        destruct (prec_rows_ok 32 _ _ H) as (rows & E & T). rewrite E. cbn [bind rel].
        split; [rewrite C'; exact H|]. split; [exact N|]. split; [exists rows; split; [reflexivity|exact T]|exact D].
      * cbn [prec_rows prec_row]. rewrite add_P3_panic; [exact I| |reflexivity]. left. rewrite (proj1 H). intros C'. rewrite C' in C. discriminate C.
    + unfold g_precompute_single. rewrite S. cbn [rel]. repeat split; auto; try apply H. rewrite Es. exact S.
    + destruct S as (rows & E & T). unfold g_precompute_single. rewrite E. cbn [rel]. split; [exact H|]. split; [exact N|].
      split; [rewrite Es; exists rows; auto|exact D].
  - assert (K : forall g', (exists s, copy_rows (match single g with Some t => t | None => [] end) = Ok s) ->
      is_full (e_double x) = false -> g' = g_precompute_double g ->
      rel stands g' (if is_P3 (e_cs x) then Ok (Elem (e_cs x) (e_pt x) (e_single x) Full) else Panic)).
    { intros g' (s & Cs) F ->. assert (E : g_precompute_double g = do b <- g_copy g; do l <- prec_double_loop 8 (core g) (core b); Ok (Ge (core g) (single g) (Some l))).
      { unfold g_precompute_double. destruct (e_double x); cbn [dtab is_full] in *; try discriminate F; rewrite D; reflexivity. }
      rewrite E. unfold g_copy. rewrite Cs. cbn [bind core]. destruct (is_P3 (e_cs x)) eqn:C.
      - assert (e_cs x = P3) as C' by (destruct (e_cs x); (discriminate C || reflexivity)). rewrite C' in H.
        destruct (prec_double_loop_ok 8 _ _ _ _ H H) as (l & El & L & T). rewrite El. cbn [bind rel].
        split; [rewrite C'; exact H|]. split; [exact N|]. split; [exact S|]. exists l. split; [reflexivity|]. split; [exact L|].
        intros j e He. specialize (T j e He). rewrite zmul_add, zmul_1, padd_comm. exact T.
      - cbn [prec_double_loop]. rewrite add_P3_panic; [exact I| |reflexivity]. left. rewrite (proj1 H). intros C'. rewrite C' in C. discriminate C. }
    assert (Cs : exists s, copy_rows (match single g with Some t => t | None => [] end) = Ok s).
    { destruct (e_single x); cbn [stab] in S; try (rewrite S; exists []; reflexivity).
      destruct S as (rows & -> & T). exists rows. apply copy_rows_8. intros i row Hi. apply (proj2 T i row Hi). }
    destruct (e_double x) eqn:Ed.
    + now apply K.
    + now apply K.
    + cbn [dtab] in D. destruct D as (l & E & T). unfold g_precompute_double. rewrite E. destruct l as [|z l]; [destruct T as [L _]; discriminate L|].
      cbn [rel]. split; [exact H|]. split; [exact N|]. split; [exact S|]. rewrite Ed. exists (z :: l). auto.
Qed.
Lemma equals_rel pt g x h y : stands g x -> stands h y -> o_equals go_ops g h = o_equals (point_ops pt) x y.
Proof.
  intros (H & N & _) (K & M & _). cbn [go_ops point_ops o_equals]. rewrite converts_eq. rewrite <- (proj1 H), <- (proj1 K).
  destruct (convertible (g_cs (core h)) (g_cs (core g))) eqn:C; cbn [andb].
  - assert (X := equals_same (core g) (core h) (e_pt x) (e_pt y) (proj2 H) (proj2 K)).
    destruct X as [X Y]; [destruct (g_cs (core g)), (g_cs (core h)); try discriminate C; tauto|].
    destruct (point_eq_dec (e_pt x) (e_pt y)) as [e|e]; [exact (X e)|exact (Y e)].
  - apply equals_false_else; [exact C|]. rewrite (proj1 H). exact N.
Qed.
Lemma encode_rel pt g x : stands g x -> o_encode go_ops g = o_encode (point_ops pt) x.
Proof.
  intros (H & N & _). cbn [go_ops point_ops o_encode]. rewrite <- (proj1 H). destruct (projective (g_cs (core g))) eqn:C.
  - apply g_encode_ok; [apply H|exact C].
  - apply encode_other. destruct (g_cs (core g)); try discriminate C; tauto.
Qed.
Lemma satisfies_rel pt g x : stands g x -> o_satisfies go_ops g = o_satisfies (point_ops pt) x.
Proof.
  intros (H & N & _). cbn [go_ops point_ops o_satisfies]. rewrite <- (proj1 H). destruct (projective (g_cs (core g))) eqn:C.
  - apply (satisfies_rep _ (e_pt x)); [apply H|]. destruct (g_cs (core g)); try discriminate C; tauto.
  - apply satisfies_other. destruct (g_cs (core g)); try discriminate C; tauto.
Qed.
Lemma is_precomputed_rel pt g x : stands g x -> o_is_precomputed go_ops g = o_is_precomputed (point_ops pt) x.
Proof.
  intros (_ & _ & _ & D). cbn [go_ops point_ops o_is_precomputed]. unfold g_is_precomputed_double.
  destruct (e_double x); cbn [dtab] in D; [now rewrite D|now rewrite D|]. destruct D as (l & -> & _). reflexivity.
Qed.

(** *** the double multiplication, with tables that are not there *)
Definition nofull (g : ge) : Prop := double g = None \/ double g = Some [].
Definition hasfull (g : ge) : Prop := exists l P, double g = Some l /\ double_table l P.
Lemma tab_bad g i : nofull g -> tab_at (double g) i = Panic.
Proof. intros [->| ->]; [reflexivity|]. cbn [tab_at]. destruct (i <? 0); [reflexivity|]. now destruct (Z.to_nat i). Qed.
Lemma step_swap_A B A A' bi r : dsm_step B A 0 bi r = dsm_step B A' 0 bi r.
Proof. reflexivity. Qed.
Lemma step_swap_B B B' A ai r : dsm_step B A ai 0 r = dsm_step B' A ai 0 r.
Proof. reflexivity. Qed.
Definition based : ge := Ge zero_P3 None (Some base_double).
Lemma based_full : hasfull based.
Proof. exists base_double, Bpt. split; [reflexivity|exact base_double_ok]. Qed.
Lemma step_fine B A ai bi r Q : hasfull A \/ ai = 0 -> hasfull B \/ bi = 0 -> okd ai -> okd bi -> repc P2 r Q ->
  exists r' Q', dsm_step B A ai bi r = Ok r' /\ repc P2 r' Q'.
Proof.
  assert (K : forall B A, hasfull A -> hasfull B -> okd ai -> okd bi -> repc P2 r Q -> exists r' Q', dsm_step B A ai bi r = Ok r' /\ repc P2 r' Q').
  { intros B' A' (lA & PA & EA & TA) (lB & PB & EB & TB) oa ob H.
    destruct (dsm_step_ok B' A' lB lA PB PA r Q ai bi EB EA TB TA H oa ob) as (r' & E & R). eauto. }
  intros [HA| ->] [HB| ->] oa ob H.
  - now apply K.
  - rewrite (step_swap_B B based A ai r). apply K; auto using based_full.
  - rewrite (step_swap_A B A based bi r). apply K; auto using based_full.
  - rewrite (step_swap_A B A based 0 r), (step_swap_B B based based 0 r). apply K; auto using based_full.
Qed.
Lemma step_bad B A ai bi r Q : hasfull A \/ nofull A -> hasfull B \/ nofull B -> okd ai -> okd bi -> repc P2 r Q ->
  (nofull A /\ ai <> 0) \/ (nofull B /\ bi <> 0) -> dsm_step B A ai bi r = Panic.
Proof.
  intros DA DB oa ob H K.
  assert (KA : nofull A -> ai <> 0 -> dsm_step B A ai bi r = Panic).
  { intros N Z. unfold dsm_step. destruct (g_dbl_P2 _ _ H) as (t & -> & Ht). cbn [bind]. destruct (to_P3_P1 _ _ Ht) as (t3 & -> & H3). cbn [bind].
    rewrite !(tab_bad A) by exact N. cbn [bind]. destruct (Z.ltb_spec 0 ai); [reflexivity|]. destruct (Z.ltb_spec ai 0); [reflexivity|]. lia. }
  destruct K as [[N Z]|[N Z]]; [now apply KA|].
  destruct DA as [DA|DA].
  - destruct DA as (lA & PA & EA & TA). unfold dsm_step. rewrite !(tab_bad B) by exact N.
    pose proof (dsm_step_ok based A base_double lA Bpt PA r Q ai 0 eq_refl EA base_double_ok TA H oa (or_introl eq_refl)) as G.
    clear -G Z H. revert G. destruct (g_dbl_P2 _ _ H) as (t & Et & Ht).
    unfold dsm_step. rewrite Et. cbn [bind].
    match goal with |- context [do t <- ?m; do t0 <- (if 0 <? 0 then _ else _); to_P2 t0] => destruct m as [u|e|] eqn:Em end.
    + cbn [bind]. change (0 <? 0) with false. cbv iota. cbn [bind]. intros (r' & E2 & _).
      destruct (to_P3 u) as [v|e|] eqn:E3; cbn [bind].
      * destruct (Z.ltb_spec 0 bi); [reflexivity|]. destruct (Z.ltb_spec bi 0); [reflexivity|]. lia.
      * exfalso. revert E2 E3. unfold to_P2, to_P3, to_cs. destruct (g_cs u); try discriminate; destruct (deref (gT u)); discriminate.
      * destruct (Z.ltb_spec 0 bi); [reflexivity|]. destruct (Z.ltb_spec bi 0); [reflexivity|]. lia.
    + cbn [bind]. intros (r' & E2 & _). discriminate E2.
    + cbn [bind]. reflexivity.
  - destruct (Z.eq_dec ai 0) as [->|Za]; [|now apply KA]. clear KA.
    unfold dsm_step. destruct (g_dbl_P2 _ _ H) as (t & -> & Ht). cbn [bind]. change (0 <? 0) with false. cbv iota. cbn [bind].
    destruct (to_P3_P1 _ _ Ht) as (t3 & -> & H3). cbn [bind].
    rewrite !(tab_bad B) by exact N. cbn [bind]. destruct (Z.ltb_spec 0 bi); [reflexivity|]. destruct (Z.ltb_spec bi 0); [reflexivity|]. lia.
Qed.
Definition digits_ok (ds : list (Z * Z)) : Prop := Forall (fun d => okd (fst d) /\ okd (snd d)) ds.
Lemma loop_bad B A : hasfull A \/ nofull A -> hasfull B \/ nofull B -> forall ds flag r Q, digits_ok ds -> repc P2 r Q ->
  Exists (fun d => (nofull A /\ fst d <> 0) \/ (nofull B /\ snd d <> 0)) ds -> dsm_loop B A ds flag r = Panic.
Proof.
  intros DA DB. induction ds as [|[ai bi] ds IH]; intros flag r Q O H X; [inversion X|].
  inversion O as [|? ? [oa ob] O']; subst. cbn [fst snd] in *. cbn [dsm_loop].
  destruct (Z.eq_dec ai 0) as [Za|Za], (Z.eq_dec bi 0) as [Zb|Zb].
  - subst. inversion X as [? ? [[_ N]|[_ N]]|? ? X']; subst; cbn [fst snd] in *; try lia.
    cbn [Z.eqb negb orb]. rewrite !orb_false_r. destruct flag.
    + destruct (step_fine B A 0 0 r Q (or_intror eq_refl) (or_intror eq_refl) oa ob H) as (r' & Q' & -> & H'). cbn [bind]. now apply (IH _ _ Q').
    + cbn [bind]. now apply (IH _ _ Q).
  - assert (F : flag || negb (ai =? 0) || negb (bi =? 0) = true) by (rewrite (proj2 (Z.eqb_neq bi 0) Zb); now rewrite orb_true_r).
    rewrite F. destruct DB as [DB|DB].
    + destruct (step_fine B A ai bi r Q (or_intror Za) (or_introl DB) oa ob H) as (r' & Q' & -> & H'). cbn [bind].
      apply (IH _ _ Q'); auto. inversion X as [? ? [[_ N]|[N _]]|? ? X']; subst; cbn [fst snd] in *; [lia| |exact X'].
      exfalso. destruct DB as (l & P & E & [L _]), N as [N|N]; rewrite E in N; [discriminate N|]. injection N as ->. discriminate L.
    + rewrite (step_bad B A ai bi r Q); auto.
  - assert (F : flag || negb (ai =? 0) || negb (bi =? 0) = true) by (rewrite (proj2 (Z.eqb_neq ai 0) Za); now rewrite orb_true_r).
    rewrite F. destruct DA as [DA|DA].
    + destruct (step_fine B A ai bi r Q (or_introl DA) (or_intror Zb) oa ob H) as (r' & Q' & -> & H'). cbn [bind].
      apply (IH _ _ Q'); auto. inversion X as [? ? [[N _]|[_ N]]|? ? X']; subst; cbn [fst snd] in *; [|lia|exact X'].
      exfalso. destruct DA as (l & P & E & [L _]), N as [N|N]; rewrite E in N; [discriminate N|]. injection N as ->. discriminate L.
    + rewrite (step_bad B A ai bi r Q); auto.
  - assert (F : flag || negb (ai =? 0) || negb (bi =? 0) = true) by (rewrite (proj2 (Z.eqb_neq bi 0) Zb); now rewrite orb_true_r).
    rewrite F. destruct DA as [DA|DA]; [|rewrite (step_bad B A ai bi r Q); auto].
    destruct DB as [DB|DB]; [|rewrite (step_bad B A ai bi r Q); auto].
    destruct (step_fine B A ai bi r Q (or_introl DA) (or_introl DB) oa ob H) as (r' & Q' & -> & H'). cbn [bind].
    apply (IH _ _ Q'); auto. inversion X as [? ? [[N _]|[N _]]|? ? X']; subst; cbn [fst snd] in *; [| |exact X'].
    + exfalso. destruct DA as (l & P & E & [L _]), N as [N|N]; rewrite E in N; [discriminate N|]. injection N as ->. discriminate L.
    + exfalso. destruct DB as (l & P & E & [L _]), N as [N|N]; rewrite E in N; [discriminate N|]. injection N as ->. discriminate L.
Qed.
Lemma loop_swap_A B A A' : forall ds flag r, Forall (fun d : Z * Z => fst d = 0) ds -> dsm_loop B A ds flag r = dsm_loop B A' ds flag r.
Proof.
  induction ds as [|[ai bi] ds IH]; intros flag r F; [reflexivity|]. inversion F as [|? ? F0 F']; subst. cbn [fst] in F0. subst ai.
  cbn [dsm_loop]. rewrite (step_swap_A B A A' bi r). destruct (flag || negb (0 =? 0) || negb (bi =? 0)).
  - destruct (dsm_step B A' 0 bi r); cbn [bind]; [apply IH; exact F'|reflexivity|reflexivity].
  - cbn [bind]. apply IH. exact F'.
Qed.
Lemma loop_swap_B B B' A : forall ds flag r, Forall (fun d : Z * Z => snd d = 0) ds -> dsm_loop B A ds flag r = dsm_loop B' A ds flag r.
Proof.
  induction ds as [|[ai bi] ds IH]; intros flag r F; [reflexivity|]. inversion F as [|? ? F0 F']; subst. cbn [snd] in F0. subst bi.
  cbn [dsm_loop]. rewrite (step_swap_B B B' A ai r). destruct (flag || negb (ai =? 0) || negb (0 =? 0)).
  - destruct (dsm_step B' A ai 0 r); cbn [bind]; [apply IH; exact F'|reflexivity|reflexivity].
  - cbn [bind]. apply IH. exact F'.
Qed.
Lemma naf_zero n : naf_digits n 0 = repeat 0 n.
Proof. induction n as [|n IH]; [reflexivity|]. cbn [naf_digits repeat]. change (naf_digit 0) with 0. change ((0 - 0) / 2) with 0. now rewrite IH. Qed.
Lemma rest_zero n : naf_rest n 0 = 0.
Proof. induction n as [|n IH]; [reflexivity|]. cbn [naf_rest]. change (naf_digit 0) with 0. change ((0 - 0) / 2) with 0. exact IH. Qed.
Lemma dv_zeros l : Forall (fun d => d = 0) l -> dv 2 l = 0.
Proof. induction 1 as [|x l -> _ IH]; [reflexivity|]. cbn [dv]. rewrite IH. reflexivity. Qed.
Lemma naf_nonzero s : 0 < s < 2 ^ 256 -> Exists (fun d => d <> 0) (naf_digits 256 s).
Proof.
  intros R. destruct (Forall_Exists_dec (fun d => d = 0) (fun d => Z.eq_dec d 0) (naf_digits 256 s)) as [F|X]; [|exact X].
  exfalso. pose proof (naf_value 256 s) as V. rewrite (dv_zeros _ F) in V. change (2 ^ Z.of_nat 256) with (2 ^ 256) in V.
  set (m := 2 ^ 256) in *. clearbody m. set (k := naf_rest 256 s) in *. clearbody k. clear F.
  assert (k <= 0 \/ 1 <= k) as [?|?] by lia; nia.
Qed.
Lemma naf_facts a : wf_bytes a -> (32 <= length a)%nat -> length (naf_digits 256 (first32 a)) = 256%nat /\ Forall okd (naf_digits 256 (first32 a)).
Proof.
  intros W L. destruct (slide_ok a W L) as (l & E & Ll & O & _). rewrite (slide_exact a W L) in E. unfold first32.
  assert (naf_digits 256 (le_val (firstn 32 a)) = l) as -> by (apply Ok_inj; exact E). auto.
Qed.
Lemma exists_fst (P : Z -> Prop) l (m : list Z) : length l = length m -> Exists P l -> Exists (fun d => P (fst d)) (combine l m).
Proof. intros L H. apply Exists_map. now rewrite combine_fst. Qed.
Lemma exists_snd (P : Z -> Prop) (l : list Z) m : length l = length m -> Exists P m -> Exists (fun d => P (snd d)) (combine l m).
Proof. intros L H. apply Exists_map. now rewrite combine_snd. Qed.
Lemma forall_fst (P : Z -> Prop) l (m : list Z) : length l = length m -> Forall P l -> Forall (fun d => P (fst d)) (combine l m).
Proof. intros L H. apply Forall_map. now rewrite combine_fst. Qed.
Lemma forall_snd (P : Z -> Prop) (l : list Z) m : length l = length m -> Forall P m -> Forall (fun d => P (snd d)) (combine l m).
Proof. intros L H. apply Forall_map. now rewrite combine_snd. Qed.
Lemma table_cases o t P g : o = double g -> dtab o t P -> (is_full t = true /\ exists l, double g = Some l /\ double_table l P) \/ (is_full t = false /\ nofull g).
Proof.
  intros -> H. destruct t; cbn [dtab is_full] in *; [right|right|left]; split; auto.
  - now left.
  - now right.
Qed.
Lemma zeros_repeat n : Forall (fun d : Z => d = 0) (repeat 0 n).
Proof. induction n; cbn [repeat]; constructor; auto. Qed.
Lemma dsm_any B A a b PB PA tB tA : wf_bytes a -> wf_bytes b -> (32 <= length a)%nat -> (32 <= length b)%nat ->
  dtab (double B) tB PB -> dtab (double A) tA PA ->
  if (is_full tA || (first32 a =? 0)) && (is_full tB || (first32 b =? 0))
  then exists r, g_doubleScalarMultiply B A a b = Ok r /\
         repc P2 r (psub (zmul (double_scalar (first32 b)) PB) (zmul (double_scalar (first32 a)) PA))
  else g_doubleScalarMultiply B A a b = Panic.
Proof.
  intros Wa Wb La Lb TB TA. destruct (naf_facts a Wa La) as [LA OA]. destruct (naf_facts b Wb Lb) as [LB OB].
  assert (RA : 0 <= first32 a < 2 ^ 256) by (unfold first32; pose proof (le_val_bound (firstn 32 a) (wf_firstn _ _ Wa)) as R; rewrite firstn_length, Nat.min_l in R by lia; exact R).
  assert (RB : 0 <= first32 b < 2 ^ 256) by (unfold first32; pose proof (le_val_bound (firstn 32 b) (wf_firstn _ _ Wb)) as R; rewrite firstn_length, Nat.min_l in R by lia; exact R).
  assert (E : forall B A, g_doubleScalarMultiply B A a b = dsm_loop B A (rev (combine (naf_digits 256 (first32 a)) (naf_digits 256 (first32 b)))) false zero_P2).
  { intros B' A'. unfold g_doubleScalarMultiply. rewrite (slide_exact a Wa La), (slide_exact b Wb Lb). reflexivity. }
  assert (ZA : first32 a = 0 -> forall B A A', g_doubleScalarMultiply B A a b = g_doubleScalarMultiply B A' a b).
  { intros Z B' A1 A2. rewrite !E. apply loop_swap_A. apply Forall_rev, (forall_fst (fun d => d = 0)); [lia|]. rewrite Z, naf_zero. apply zeros_repeat. }
  assert (ZB : first32 b = 0 -> forall B B' A, g_doubleScalarMultiply B A a b = g_doubleScalarMultiply B' A a b).
  { intros Z B1 B2 A'. rewrite !E. apply loop_swap_B. apply Forall_rev, (forall_snd (fun d => d = 0)); [lia|]. rewrite Z, naf_zero. apply zeros_repeat. }
  assert (D0 : double_scalar 0 = 0) by (unfold double_scalar; rewrite rest_zero; ring).
  assert (DO : digits_ok (rev (combine (naf_digits 256 (first32 a)) (naf_digits 256 (first32 b))))) by (apply Forall_rev, Forall_combine; assumption).
  assert (EX : forall B A lB lA PB PA, double B = Some lB -> double A = Some lA -> double_table lB PB -> double_table lA PA ->
    exists r, g_doubleScalarMultiply B A a b = Ok r /\ repc P2 r (psub (zmul (double_scalar (first32 b)) PB) (zmul (double_scalar (first32 a)) PA))).
  { intros. now apply (dsm_every _ _ lB lA). }
  assert (BA : first32 a <> 0 -> Exists (fun d => fst d <> 0) (rev (combine (naf_digits 256 (first32 a)) (naf_digits 256 (first32 b))))).
  { intros N. apply Exists_rev. apply (exists_fst (fun d => d <> 0)); [lia|]. apply naf_nonzero. lia. }
  assert (BB : first32 b <> 0 -> Exists (fun d => snd d <> 0) (rev (combine (naf_digits 256 (first32 a)) (naf_digits 256 (first32 b))))).
  { intros N. apply Exists_rev. apply (exists_snd (fun d => d <> 0)); [lia|]. apply naf_nonzero. lia. }
  assert (HA : hasfull A \/ nofull A) by (destruct (table_cases _ _ _ _ eq_refl TA) as [[_ (l & ? & ?)]|[_ ?]]; [left; exists l, PA; auto|now right]).
  assert (HB : hasfull B \/ nofull B) by (destruct (table_cases _ _ _ _ eq_refl TB) as [[_ (l & ? & ?)]|[_ ?]]; [left; exists l, PB; auto|now right]).
  destruct (table_cases _ _ _ _ eq_refl TA) as [[-> (lA & EA & UA)]|[-> NA]], (table_cases _ _ _ _ eq_refl TB) as [[-> (lB & EB & UB)]|[-> NB]]; cbn [orb andb].
  - now apply (EX _ _ lB lA).
  - destruct (Z.eqb_spec (first32 b) 0) as [Z|Z].
    + destruct (EX based A base_double lA Bpt PA eq_refl EA base_double_ok UA) as (r & Er & Hr).
      exists r. rewrite (ZB Z B based). split; [exact Er|]. rewrite Z, D0, zmul_0 in Hr |- *. exact Hr.
    + rewrite E. apply (loop_bad B A HA HB _ _ _ pzero DO zero_P2_rep).
      eapply Exists_impl; [|apply BB, Z]. intros d K. right. split; assumption.
  - rewrite andb_true_r. destruct (Z.eqb_spec (first32 a) 0) as [Z|Z].
    + destruct (EX B based lB base_double PB Bpt EB eq_refl UB base_double_ok) as (r & Er & Hr).
      exists r. rewrite (ZA Z B A based). split; [exact Er|]. rewrite Z, D0, zmul_0 in Hr |- *. exact Hr.
    + rewrite E. apply (loop_bad B A HA HB _ _ _ pzero DO zero_P2_rep).
      eapply Exists_impl; [|apply BA, Z]. intros d K. left. split; assumption.
  - destruct (Z.eqb_spec (first32 a) 0) as [Z|Z]; cbn [andb].
    + destruct (Z.eqb_spec (first32 b) 0) as [Z'|Z'].
      * destruct (EX based based base_double base_double Bpt Bpt eq_refl eq_refl base_double_ok base_double_ok) as (r & Er & Hr).
        exists r. rewrite (ZA Z B A based), (ZB Z' B based). split; [exact Er|]. rewrite Z, Z', D0, zmul_0 in Hr |- *. exact Hr.
      * rewrite E. apply (loop_bad B A HA HB _ _ _ pzero DO zero_P2_rep).
        eapply Exists_impl; [|apply BB, Z']. intros d K. right. split; assumption.
    + rewrite E. apply (loop_bad B A HA HB _ _ _ pzero DO zero_P2_rep).
      eapply Exists_impl; [|apply BA, Z]. intros d K. left. split; assumption.
Qed.
Lemma dmul_rel pt g x h y a b : wf_bytes a -> wf_bytes b -> stands g x -> stands h y ->
  rel stands (o_dmul go_ops g h a b) (o_dmul (point_ops pt) x y a b).
Proof.
  intros Wa Wb (_ & _ & _ & D) (_ & _ & _ & D'). cbn [go_ops point_ops o_dmul]. unfold long.
  destruct (Nat.leb_spec 32 (length a)) as [La|La]; cbn [andb].
  - destruct (Nat.leb_spec 32 (length b)) as [Lb|Lb]; cbn [andb].
    + pose proof (dsm_any g h a b _ _ _ _ Wa Wb La Lb D D') as G.
      destruct ((is_full (e_double y) || (first32 a =? 0)) && (is_full (e_double x) || (first32 b =? 0))).
      * apply new_ok; [discriminate|exact G].
      * apply new_panic, G.
    + apply new_panic. unfold g_doubleScalarMultiply. rewrite (slide_exact a Wa La). cbn [bind].
      unfold slide. rewrite (proj2 (Nat.ltb_lt _ _) Lb). reflexivity.
  - apply new_panic. unfold g_doubleScalarMultiply, slide at 1. rewrite (proj2 (Nat.ltb_lt _ _) La). reflexivity.
Qed.

(** ** Programs *)
Lemma all_related pt : finds_points pt -> forall i, wf_instr i -> related stands i go_ops (point_ops pt).
Proof.
  intros HF i W. destruct i; cbn [related wf_instr] in *.
  - apply const_rel.
  - now apply decode_rel.
  - apply copy_rel.
  - intros g x. apply to_rel.
  - intros g x. apply dbl_rel.
  - intros g x. apply negate_rel.
  - intros g x h y. apply bin_rel.
  - intros g x. apply select_rel.
  - intros g x. now apply mul_rel.
  - intros g x h y. now apply dmul_rel.
  - intros g y. apply precompute_rel.
  - intros g x h y. apply equals_rel.
  - intros g x. apply encode_rel.
  - intros g x. apply satisfies_rel.
  - intros g x. apply is_precomputed_rel.
Qed.
Lemma programs pt : finds_points pt -> forall p, Forall wf_instr p -> replies go_ops p [] = replies (point_ops pt) p [].
Proof. intros HF p W. exact (replies_same stands go_ops (point_ops pt) wf_instr (all_related pt HF) p W [] [] (Forall2_nil _)). Qed.

(** ** The point that a string denotes *)
Definition affine (x y : F) : option point :=
  match F_eq_dec (y * y - x * x)%F (1 + Fd * (x * x) * (y * y))%F with left H => Some (mkpt x y H) | right _ => None end.
Definition point_of (raw : bytes) : option point :=
  match g_decode raw with Ok c => affine (rF (gX c) / rF (gZ c))%F (rF (gY c) / rF (gZ c))%F | _ => None end.
Lemma affine_point P : affine (px P) (py P) = Some P.
Proof.
  unfold affine. destruct (F_eq_dec _ _) as [H|H]; [|destruct (H (pon P))]. f_equal. apply point_eq; reflexivity.
Qed.
Lemma points_exist : finds_points point_of.
Proof.
  intros raw W L P. unfold point_of. destruct (g_decode_ok raw W (or_introl L)) as [(Q & c & D & -> & [C H])|(N & ->)].
  - destruct H as [_ H]. rewrite C in H. cbv zeta in H. destruct H as (Hz & HX & HY & _).
    assert (Ex : (rF (gX c) / rF (gZ c) = px Q)%F) by (rewrite HX; field; exact Hz).
    assert (Ey : (rF (gY c) / rF (gZ c) = py Q)%F) by (rewrite HY; field; exact Hz).
    rewrite Ex, Ey, affine_point. split; [intros [= <-]; exact D|]. intros D'. f_equal. exact (denotes_unique raw Q P D D').
  - split; [discriminate|]. intros D. destruct (N P D).
Qed.
(** ** Exchanging strings of the same point *)
Lemma exchange_related p q : exchanged p q -> forall vs, replies (point_ops point_of) p vs = replies (point_ops point_of) q vs.
Proof.
  induction 1 as [|i j p q H K IH]; intros vs; [reflexivity|]. cbn [replies].
  assert (E : exec (point_ops point_of) i vs = exec (point_ops point_of) j vs).
  { destruct H as [->|(a & b & P & -> & -> & (Wa & La & Da) & (Wb & Lb & Db))]; [reflexivity|]. cbn [exec point_ops o_decode]. rewrite La, Lb.
    rewrite (proj2 (points_exist a Wa La P) Da), (proj2 (points_exist b Wb Lb P) Db). reflexivity. }
  rewrite E. destruct (exec (point_ops point_of) j vs) as [vs' o]. f_equal. destruct o; auto.
Qed.
Lemma exchange p q : exchanged p q -> Forall wf_instr p -> replies go_ops p [] = replies go_ops q [].
Proof.
  intros X W. assert (W' : Forall wf_instr q).
  { clear -X W. induction X as [|i j p q H K IH]; [constructor|]. inversion W; subst. constructor; [|auto].
    destruct H as [->|(a & b & P & -> & -> & _ & (Wb & _))]; [assumption|exact Wb]. }
  rewrite (programs _ points_exist p W), (programs _ points_exist q W'). now apply exchange_related.
Qed.
(** an example: 2 B by an addition, by a doubling and by a multiplication, and a copy that has no table *)
Definition two : bytes := 2 :: repeat 0 31.
Definition ex_prog : list instr :=
  [IConst KBase; ITo 0 CACHED; IBin OpAdd 0 1; ITo 2 P3; IDbl 0; ITo 4 P3; IMul 0 two; IEquals 3 5; IEquals 5 6; INegate 3; ITo 7 CACHED; IBin OpAdd 3 8;
   IConst KZeroP2; IEquals 10 9; ISatisfies 9; IBin OpPrecomputedAdd 0 1; ICopy 3; IIsPrecomputed 11; IIsPrecomputed 3;
   IDoubleMul 11 0 two (repeat 0 32); IPrecompute PDouble 11; IDoubleMul 11 0 two two; IMul 11 two; IEncode 0].
Lemma same_point (P Q : point) : P = Q -> (if point_eq_dec P Q then true else false) = true.
Proof. intros E. destruct (point_eq_dec P Q); [reflexivity|contradiction]. Qed.
Lemma replies_step {E} (c : ops E) i p vs vs' o l : exec c i vs = (vs', o) -> o <> RPanic -> replies c p vs' = l -> replies c (i :: p) vs = o :: l.
Proof. intros H N <-. cbn [replies]. rewrite H. destruct o; try reflexivity. contradiction. Qed.
Lemma replies_stop {E} (c : ops E) i p vs vs' : exec c i vs = (vs', RPanic) -> replies c (i :: p) vs = [RPanic].
Proof. intros H. cbn [replies]. rewrite H. reflexivity. Qed.
Lemma ex_prog_wf : Forall wf_instr ex_prog.
Proof. repeat constructor; lia. Qed.
Lemma ex_prog_replies : replies go_ops ex_prog [] =
  [RElem; RElem; RElem; RElem; RElem; RElem; RElem; RBool true; RBool true; RElem; RElem; RElem;
   RElem; RBool true; RBool true; RErr ErrIllegalArgument; RElem; RBool true; RBool false;
   RElem; RDone; RElem; RPanic].
Proof.
  rewrite (programs _ points_exist) by (repeat constructor; lia).
  assert (Z2 : single_scalar (first32 two) = 2) by (vm_compute; reflexivity).
  assert (Z0 : first32 (repeat 0 32) = 0) by reflexivity.
  unfold ex_prog. set (zs := repeat 0 32) in *. assert (Ls : long zs = true) by reflexivity. assert (Lt : long two = true) by reflexivity.
  clearbody zs. set (t := two) in *. clearbody t.
  repeat first
    [ reflexivity
    | eapply replies_stop; [cbn [exec on nth_error o_mul point_ops e_single is_full andb push]; reflexivity]
    | eapply replies_step; [cbn [exec push on observe update assign nth_error app o_const o_decode o_copy o_to o_dbl o_negate o_bin o_select o_mul o_dmul o_precompute
    o_equals o_encode o_satisfies o_is_precomputed point_ops plain e_cs e_pt e_single e_double converts is_full andb p_bin is_P3 projective p_copied];
      rewrite ?Lt, ?Ls, ?Z0, ?Z2; cbn [andb orb Z.eqb push update assign app observe];
      rewrite ?same_point by first [reflexivity | symmetry; apply zmul_2 | symmetry; rewrite padd_comm; apply padd_neg_l]; reflexivity|easy|] ].
Qed.
Lemma two_strings : exists a b P, a <> b /\ string_of a P /\ string_of b P.
Proof.
  exists (le_bytes 32 1), (le_bytes 32 (p25519 + 1)), pzero. split; [intros H; vm_compute in H; discriminate H|].
  assert (R : forall k, 0 <= k < 2 ^ 255 -> k mod p25519 = 1 -> string_of (le_bytes 32 k) pzero).
  { intros k Hk M. split; [apply le_bytes_wf|]. split; [apply le_bytes_length|]. split; [|right; reflexivity].
    unfold y255. rewrite firstn_all2 by (rewrite le_bytes_length; lia). rewrite le_bytes_val.
    apply F_eq. rewrite val_inF. rewrite (Z.mod_small k) by (split; [lia|]; eapply Z.lt_trans; [apply Hk|reflexivity]).
    rewrite (Z.mod_small k) by exact Hk. rewrite M. reflexivity. }
  split; apply R; try (split; [discriminate|reflexivity]); reflexivity.
Qed.
