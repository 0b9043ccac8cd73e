(** Lemmas behind [PropShare]. *)
From Coq Require Import List ZArith Lia Bool Arith.
From Verif Require Import GoBase FieldModel Tables GroupModel GroupSpec BasePoint GroupEq ApiModel ApiProofs VerifyProofs
  AliasProofs ShareModel ShareSpec ShareProofs.
Import ListNotations.
Open Scope nat_scope.

Lemma base_double_cons : exists x d, base_double = x :: d.
Proof. unfold base_double. destruct base_prec_double as [|t l] eqn:E; [discriminate E|]. exists (of_triple t), (map of_triple l). reflexivity. Qed.

Lemma base_copy c : g_copy (Ge c (Some base_single) (Some base_double)) = Ok (Ge c (Some base_single) (Some base_double)).
Proof. unfold g_copy. cbn [single double core]. rewrite copy_rows_ok by exact base_rows_8. reflexivity. Qed.
Lemma base_both : exists c, get_base_point = Ok (Ge c (Some base_single) (Some base_double)) /\
  base_point = Ok (Ge c (Some base_single) (Some base_double)) /\ repc P3 c Bpt.
Proof.
  destruct get_base_point_ok as (c & Eg & Rc). exists c. split; [exact Eg|]. split; [|exact Rc].
  unfold base_point. rewrite Eg. cbn [unwrap bind]. apply base_copy.
Qed.
Lemma init_install g : get_base_point = Ok g -> init_mem = install g.
Proof. intros E. unfold init_mem. now rewrite E. Qed.
Lemma install_reach g b m0 os m s x d : single g = Some s -> double g = Some (x :: d) -> install g = Ok (m0, b) ->
  Forall library_call os -> grun b m0 os = Some m ->
  wf_mem m /\ exists o t y d', nth_error (objs m) b = Some o /\ hval m o = g /\ ho_single o = Some t /\ ho_double o = Some (y :: d').
Proof.
  intros Es Ed E0 F R.
  destruct (install_ok _ m0 b _ _ _ Es Ed E0) as (W0 & o & t & y & d' & N & V & Eso & Edo).
  destruct (grun_mono _ _ _ _ W0 F R) as (M & W). split; [assumption|].
  pose proof M as (_ & M2). destruct (M2 _ _ N) as (o' & N' & So).
  exists o', t, y, d'. split; [assumption|].
  rewrite (hval_tables m0 m o o' t y d' M W0 (wf_at _ _ _ W0 N) So Eso Edo).
  destruct So as (_ & _ & _ & _ & _ & S6 & S7). auto 7.
Qed.
Lemma reachable_base b m : reachable b m -> wf_mem m /\ exists c o t y d,
  nth_error (objs m) b = Some o /\ hval m o = Ge c (Some base_single) (Some base_double) /\
  base_point = Ok (Ge c (Some base_single) (Some base_double)) /\ repc P3 c Bpt /\
  ho_single o = Some t /\ ho_double o = Some (y :: d).
Proof.
  intros (m0 & os & E0 & F & R). destruct base_both as (c & Eg & Eb & Rc).
  rewrite (init_install _ Eg) in E0. destruct base_double_cons as (x & d & Ed).
  assert (Ed' : double (Ge c (Some base_single) (Some base_double)) = Some (x :: d)).
  { cbn [double]. rewrite Ed. reflexivity. }
  destruct (install_reach (Ge c (Some base_single) (Some base_double)) b m0 os m base_single x d eq_refl Ed' E0 F R) as (W & o & t & y & d' & N & V & Es & Edo).
  split; [assumption|]. exists c, o, t, y, d'. auto 7.
Qed.
Lemma base_constant b m : reachable b m -> exists m1 a g,
  gstep b m GBasePoint = Some (m1, Some a) /\ base_point = Ok g /\ holds m1 a g.
Proof.
  intros R. destruct (reachable_base _ _ R) as (W & c & o & t & y & d & N & V & Eb & Rc & Es & Ed).
  unfold gstep. rewrite N.
  assert (EC : g_copy (hval m o) = Ok (hval m o)).
  { rewrite V. apply base_copy. }
  destruct (copy_h m o) as [(m1, a)|e|] eqn:E.
  - destruct (copy_ok _ _ _ _ _ W N E) as (_ & _ & _ & o' & N' & V' & _).
    rewrite bind_ok. cbn [fst snd]. exists m1, a, (hval m o). split; [reflexivity|]. split; [now rewrite V|].
    exists o'. split; [assumption|]. rewrite EC in V'.
    assert (Q : forall x y : ge, Ok x = Ok y -> y = x) by (intros; congruence). now apply Q.
  - unfold copy_h in E. rewrite EC, bind_ok in E. discriminate.
  - unfold copy_h in E. rewrite EC, bind_ok in E. discriminate.
Qed.
(** and the elements a program has keep their values too; tables can only be added *)
Lemma elements_constant b m : reachable b m -> forall os m', Forall library_call os -> grun b m os = Some m' ->
  forall a g, holds m a g -> exists g', holds m' a g' /\ core g' = core g /\
    (forall t, single g = Some t -> single g' = Some t) /\
    (forall x t, double g = Some (x :: t) -> double g' = Some (x :: t)).
Proof.
  intros R os m' F E a g (o & N & V). destruct (reachable_base _ _ R) as (W & _).
  destruct (grun_mono _ _ _ _ W F E) as (M & W'). pose proof M as (_ & M2). destruct (M2 _ _ N) as (o' & N' & So).
  pose proof (wf_at _ _ _ W N) as Wo. exists (hval m' o'). split; [now exists o'|]. subst g. split.
  { unfold hval. cbn [core]. now apply (hcore_mono m m'). }
  destruct So as (_ & _ & _ & _ & _ & S6 & S7). pose proof Wo as (_ & _ & _ & _ & WS & WD). split.
  - intros t. unfold hval. cbn [single]. destruct (ho_single o) as [s|]; [|discriminate]. cbn [option_map].
    intros Ht. rewrite (S6 _ eq_refl). cbn [option_map]. rewrite <- Ht. f_equal. apply rows_mono; auto.
  - intros x t. unfold hval. cbn [double]. destruct (ho_double o) as [[|s l]|]; try discriminate.
    intros Ht. rewrite (S7 _ _ eq_refl). rewrite <- Ht. cbn [option_map]. f_equal. apply row_mono; auto.
Qed.
Lemma grun_app b os1 : forall m os2, grun b m (os1 ++ os2) = match grun b m os1 with Some m' => grun b m' os2 | None => None end.
Proof. induction os1 as [|o os IH]; intros m os2; cbn [grun app]; [reflexivity|]. destruct (gstep b m o) as [(m1, x)|]; [apply IH|reflexivity]. Qed.
Lemma reachable_step b m o m' x : reachable b m -> library_call o -> gstep b m o = Some (m', x) -> reachable b m'.
Proof.
  intros (m0 & os & E0 & F & R) L E. exists m0, (os ++ [o]). split; [assumption|]. split.
  - apply Forall_app. split; [assumption|]. now constructor.
  - rewrite grun_app, R. cbn [grun]. now rewrite E.
Qed.

(** ** Writes from outside *)
Lemma set_cell_at m p f : p < length (cells m) -> cell (set_cell m p f) p = f.
Proof.
  intros L. unfold cell, set_cell. cbn [cells]. rewrite app_nth2; rewrite firstn_length; [|lia].
  replace (p - min p (length (cells m))) with 0 by lia. reflexivity.
Qed.
Lemma get_coord_ptr m o c : get_coord (hcore m o) c = option_map (cell m) (coord_ptr o c).
Proof. destruct c; reflexivity. Qed.
(** the base point object and a copy of it *)
Lemma base_step b m m1 a : reachable b m -> gstep b m GBasePoint = Some (m1, Some a) ->
  exists o o1 t, nth_error (objs m) b = Some o /\ nth_error (objs m1) b = Some o /\ nth_error (objs m1) a = Some o1 /\
    wf_mem m1 /\ mono m m1 /\ (forall c, coord_ptr o1 c = coord_ptr o c) /\ ho_cs o1 = ho_cs o /\
    ho_single o = Some t /\ ho_single o1 = Some t /\ (exists c, hval m o = Ge c (Some base_single) (Some base_double) /\ g_cs c = P3 /\ exists T, gT c = Some T).
Proof.
  intros R E. destruct (reachable_base _ _ R) as (W & c & o & t & y & d & N & V & Eb & Rc & Es & Ed). clear Eb.
  unfold gstep in E. rewrite N in E.
  destruct (copy_h m o) as [(m1', a')|e|] eqn:Ec; cbn [bind fst snd] in E; try discriminate E.
  assert (m1' = m1) as -> by congruence. assert (a' = a) as -> by congruence. clear E.
  destruct (copy_ok _ _ _ _ _ W N Ec) as (M & W1 & A & o' & N' & V' & PX & PY & PZ & PT & PS & PD).
  assert (CS : ho_cs o' = ho_cs o).
  { rewrite V in V'. rewrite base_copy in V'. assert (Q : forall x y : ge, Ok x = Ok y -> x = y) by (intros; congruence).
    apply Q in V'. rewrite <- V in V'. apply (f_equal core) in V'. cbn [core hval] in V'. now apply (f_equal g_cs) in V'. }
  exists o, o', t. split; [assumption|]. split.
  { unfold copy_h in Ec. apply bind_inv in Ec. destruct Ec as (g & _ & Ec). unfold new_obj in Ec.
    assert (Q : forall p q : mem * nat, Ok p = Ok q -> q = p) by (intros; congruence). apply Q in Ec.
    apply pair_equal_spec in Ec. destruct Ec as (-> & _). cbn [objs]. rewrite nth_error_app1; [assumption|].
    apply nth_error_Some. congruence. }
  split; [assumption|]. split; [assumption|]. split; [assumption|]. split.
  { intros [| | |]; cbn [coord_ptr]; congruence. }
  split; [assumption|]. split; [assumption|]. split; [now apply PS|]. exists c. split; [assumption|].
  destruct Rc as (Rc & _ & Rd). cbv zeta in Rd. rewrite Rc in Rd. destruct Rd as (_ & _ & _ & T & HT & _).
  split; [exact Rc|]. now exists T.
Qed.
(** a second copy, in a memory that may have been written to *)
Lemma copy_again b m o m' a : nth_error (objs m) b = Some o -> gstep b m GBasePoint = Some (m', Some a) ->
  exists o', nth_error (objs m') a = Some o' /\ cells m' = cells m /\ objs m' = objs m ++ [o'] /\
    (forall c, coord_ptr o' c = coord_ptr o c) /\ (forall t, ho_single o = Some t -> ho_single o' = Some t).
Proof.
  intros N E. unfold gstep in E. rewrite N in E.
  destruct (copy_h m o) as [(m1', a')|e|] eqn:Ec; cbn [bind fst snd] in E; try discriminate E.
  assert (m1' = m') as -> by congruence. assert (a' = a) as -> by congruence. clear E.
  unfold copy_h in Ec. apply bind_inv in Ec. destruct Ec as (g & _ & Ec). unfold new_obj in Ec.
  assert (Q : forall p q : mem * nat, Ok p = Ok q -> q = p) by (intros; congruence). apply Q in Ec.
  apply pair_equal_spec in Ec. destruct Ec as (-> & ->). cbn [objs cells].
  eexists. split; [apply nth_error_snoc|]. split; [reflexivity|]. split; [reflexivity|]. split.
  - intros [| | |]; reflexivity.
  - intros t Ht. cbn [ho_single]. now rewrite Ht.
Qed.
Lemma write_leaks b m m1 a c f m2 x m3 a' : reachable b m ->
  gstep b m GBasePoint = Some (m1, Some a) -> gstep b m1 (GWrite a c f) = Some (m2, x) ->
  gstep b m2 GBasePoint = Some (m3, Some a') ->
  exists g, holds m3 a' g /\ get_coord (core g) c = Some f.
Proof.
  intros R E1 E2 E3. destruct (base_step _ _ _ _ R E1) as (o & o1 & t & N & N1 & Na & W1 & M1 & P & _ & Es & _).
  unfold gstep in E2. rewrite Na in E2. destruct (coord_ptr o1 c) as [p|] eqn:Ep; [|discriminate].
  assert (m2 = set_cell m1 p f) as -> by congruence. clear E2.
  assert (Lp : p < length (cells m1)).
  { pose proof (wf_at _ _ _ W1 Na) as (A & B & C & D & _). destruct c; cbn [coord_ptr] in Ep; try (injection Ep as <-; assumption). now apply D. }
  destruct (copy_again b (set_cell m1 p f) o m3 a' N1 E3) as (o3 & N3 & C3 & _ & P3' & _).
  exists (hval m3 o3). split; [now exists o3|]. cbn [core hval]. rewrite get_coord_ptr, P3', <- P, Ep. cbn [option_map].
  f_equal. unfold cell. rewrite C3. now apply set_cell_at.
Qed.
(** every such write is possible *)
Lemma write_possible b m m1 a c f : reachable b m -> gstep b m GBasePoint = Some (m1, Some a) ->
  exists m2, gstep b m1 (GWrite a c f) = Some (m2, None).
Proof.
  intros R E1. destruct (base_step _ _ _ _ R E1) as (o & o1 & t & N & N1 & Na & W1 & M1 & P & CS & Es & _ & (cc & V & _ & T & HT)).
  unfold gstep. rewrite Na. destruct (coord_ptr o1 c) as [p|] eqn:Ep; [now eexists|]. exfalso.
  assert (PT : ho_T o = None).
  { destruct c; cbn [coord_ptr] in Ep; try discriminate Ep. specialize (P CT). cbn [coord_ptr] in P. now rewrite <- P. }
  apply (f_equal core) in V. cbn [core hval] in V. apply (f_equal gT) in V. cbn [gT hcore] in V.
  rewrite PT, HT in V. discriminate V.
Qed.

Lemma select_is_entry m o rows row pos b m' r : ho_single o = Some rows -> nth_error rows pos = Some row -> length row = 8 ->
  1 <= b <= 8 -> select_h m o pos (Z.of_nat b) = Ok (m', r) -> nth_error row (b - 1) = Some r /\ keeps m m'.
Proof.
  intros Es Er L B E. unfold select_h in E. cbv zeta in E. destruct (fresh m zero_precomputed) as (m0, z) eqn:Ez.
  rewrite Es, Er in E. apply bind_inv in E. destruct E as (t & Et & E).
  destruct (nth_error (objs m0) t) as [e|] eqn:Ne; [|discriminate E].
  destruct (new_elem m0 PRECOMPUTED (Sh (ho_Y e)) (Sh (ho_X e)) (Fr (fe_neg (cell m0 (ho_Z e)))) None) as (m1, tM) eqn:EM.
  apply bind_inv in E. destruct E as (r' & Er' & E).
  assert (Q : forall p q : mem * nat, Ok p = Ok q -> p = q) by (intros; congruence). apply Q in E.
  apply pair_equal_spec in E. destruct E as (-> & ->). split.
  - destruct row as [|r1 [|r2 [|r3 [|r4 [|r5 [|r6 [|r7 [|r8 [|]]]]]]]]]; try discriminate L.
    assert (C : b = 1 \/ b = 2 \/ b = 3 \/ b = 4 \/ b = 5 \/ b = 6 \/ b = 7 \/ b = 8) by lia.
    destruct C as [->|[->|[->|[->|[->|[->|[->| ->]]]]]]]; vm_compute in Et; injection Et as <-;
      vm_compute in Er'; injection Er' as <-; reflexivity.
  - intros a p H. apply (new_elem_keeps _ _ _ _ _ _ _ _ EM). now apply (fresh_keeps _ _ _ _ Ez).
Qed.
Lemma base_single_shape pos : pos < 32 -> exists row, nth_error base_single pos = Some row /\ length row = 8.
Proof.
  intros L. destruct TableProofs.base_single_ok as (L0 & K).
  destruct (nth_error base_single pos) as [row|] eqn:E; [|apply nth_error_None in E; lia].
  exists row. split; [reflexivity|]. now apply (K pos).
Qed.
Lemma select_leaks b m m1 a pos k m2 r c f m3 x m4 a' : reachable b m -> pos < 32 -> 1 <= k <= 8 ->
  gstep b m GBasePoint = Some (m1, Some a) -> gstep b m1 (GSelect a pos (Z.of_nat k)) = Some (m2, Some r) ->
  gstep b m2 (GWrite r c f) = Some (m3, x) -> gstep b m3 GBasePoint = Some (m4, Some a') ->
  exists g e, holds m4 a' g /\ table_entry g pos k = Some e /\ get_coord e c = Some f.
Proof.
  intros R Lp Lk E1 E2 E3 E4.
  destruct (base_step _ _ _ _ R E1) as (o & o1 & t & N & N1 & Na & W1 & M1 & P & _ & Es & Es1 & (cc & V & _)).
  assert (RW : exists row, nth_error t pos = Some row /\ length row = 8).
  { destruct (base_single_shape pos Lp) as (row0 & B1 & B2). apply (f_equal single) in V. cbn [single hval] in V.
    rewrite Es in V. cbn [option_map] in V. assert (Q : forall x y : list (list gcore), Some x = Some y -> x = y) by (intros; congruence).
    apply Q in V. rewrite <- V in B1. rewrite nth_error_map' in B1. destruct (nth_error t pos) as [row|]; [|discriminate B1].
    exists row. split; [reflexivity|]. cbn [option_map] in B1.
    assert (Q' : forall x y : list gcore, Some x = Some y -> x = y) by (intros; congruence). apply Q' in B1.
    rewrite <- B2, <- B1. now rewrite map_length. }
  destruct RW as (row & Er & Lr). clear V.
  unfold gstep in E2. rewrite Na in E2.
  destruct (select_h m1 o1 pos (Z.of_nat k)) as [(m2', r')|e|] eqn:Esel; rewrite ?bind_ok in E2; cbn [fst snd] in E2; try discriminate E2.
  assert (m2' = m2) as -> by congruence. assert (r' = r) as -> by congruence. clear E2.
  destruct (select_ok _ _ _ _ _ _ _ W1 Na Esel) as (M2 & W2 & or & Nr & _).
  destruct (select_is_entry _ _ _ _ _ _ _ _ Es1 Er Lr Lk Esel) as (Hr & KP).
  unfold gstep in E3. rewrite Nr in E3. destruct (coord_ptr or c) as [p|] eqn:Ep; [|discriminate E3].
  assert (m3 = set_cell m2 p f) as -> by congruence. clear E3.
  assert (Lc : p < length (cells m2)).
  { pose proof (wf_at _ _ _ W2 Nr) as (A & B & C & D & _). destruct c; cbn [coord_ptr] in Ep; try (injection Ep as <-; assumption). now apply D. }
  destruct (copy_again b (set_cell m2 p f) o m4 a' (KP _ _ N1) E4) as (o4 & N4 & C4 & O4 & _ & S4).
  exists (hval m4 o4), (entry m4 r). split; [now exists o4|]. split.
  - unfold table_entry, hval. cbn [single]. rewrite (S4 t Es). cbn [option_map]. rewrite nth_error_map', Er. cbn [option_map].
    rewrite nth_error_map', Hr. reflexivity.
  - assert (Nr4 : nth_error (objs m4) r = Some or).
    { rewrite O4. rewrite nth_error_app1; [exact Nr|]. apply nth_error_Some. cbn [set_cell objs]. congruence. }
    unfold entry. rewrite Nr4, get_coord_ptr, Ep. cbn [option_map]. f_equal. unfold cell. rewrite C4. now apply set_cell_at.
Qed.

(** ** The values are those of the memory-less model *)
Lemma fresh_result m r : wf_mem m ->
  result (match (do g <- r; let (m1, a) := fresh m g in Ok (m1, Some a)) with
          | Ok x => Some x | Err _ => Some (m, None) | Panic => None end) r.
Proof.
  intros W. destruct r as [g|e|]; cbn [bind result]; try exact I.
  destruct (fresh m g) as (m1, a) eqn:E. destruct (fresh_ok _ _ _ _ W E) as (_ & _ & _ & o & N & _ & _ & V & _).
  exists o. split; [assumption|]. now apply (f_equal core) in V.
Qed.
Lemma elem_result m (r : res (mem * nat)) (v : res gcore) :
  (forall m1 a, r = Ok (m1, a) -> exists o g, nth_error (objs m1) a = Some o /\ v = Ok g /\ hcore m1 o = g) ->
  (forall e, r = Err e -> exists e', v = Err e') -> (r = Panic -> v = Panic) ->
  result (match (do x <- r; Ok (fst x, Some (snd x))) with
          | Ok x => Some x | Err _ => Some (m, None) | Panic => None end) v.
Proof.
  intros A B C. destruct r as [(m1, a)|e|]; cbn [bind fst snd].
  - destruct (A m1 a eq_refl) as (o & g & N & -> & V). cbn. now exists o.
  - destruct (B e eq_refl) as (e' & ->). exact I.
  - rewrite (C eq_refl). exact I.
Qed.
Lemma to_cs_result b m a o n : reachable b m -> nth_error (objs m) a = Some o ->
  result (gstep b m (GToCs a n)) (to_cs (hcore m o) n).
Proof.
  intros R N. destruct (reachable_base _ _ R) as (W & _). unfold gstep. rewrite N. apply elem_result.
  - intros m1 a1 E. destruct (to_cs_ok _ _ _ _ _ _ W N E) as (_ & _ & _ & o' & g & N' & E' & V).
    exists o', g. split; [assumption|]. split; [assumption|]. now apply (f_equal core) in V.
  - intros e E. unfold to_cs_h in E. cbv zeta in E. destruct (to_cs (hcore m o) n) as [v|e'|]; cbn [bind] in E; try discriminate E. now exists e'.
  - intros E. unfold to_cs_h in E. cbv zeta in E. destruct (to_cs (hcore m o) n) as [v|e'|]; cbn [bind] in E; try discriminate E. reflexivity.
Qed.
Lemma select_result b m a o pos k : reachable b m -> nth_error (objs m) a = Some o ->
  result (gstep b m (GSelect a pos k)) (g_select (hval m o) pos k).
Proof.
  intros R N. destruct (reachable_base _ _ R) as (W & _). unfold gstep. rewrite N.
  pose proof (wf_at _ _ _ W N) as (_ & _ & _ & _ & WS & _).
  assert (NOK : forall X, (forall p, select_h m o pos k <> Ok p) ->
     (select_h m o pos k = X) -> match X with Ok _ => False | Err e => g_select (hval m o) pos k = Err e | Panic => g_select (hval m o) pos k = Panic end).
  { intros X NX <-. unfold select_h in *. unfold g_select. cbv zeta in *.
    set (bAbs := (k - Z.shiftl (Z.land (- is_negative_ct k) k) 1)%Z) in *.
    destruct (fresh m zero_precomputed) as (m0, z) eqn:Ez.
    destruct (fresh_ok _ _ _ _ W Ez) as (M0 & W0 & Az & oz & Nz & _ & _ & Vz & Lz).
    unfold hval. cbn [single]. destruct (ho_single o) as [rows|] eqn:ES; [|reflexivity]. cbn [option_map].
    rewrite nth_error_map'. destruct (nth_error rows pos) as [row|] eqn:ER; [|reflexivity]. cbn [option_map].
    assert (WR : Forall (fun a => a < length (objs m)) row).
    { specialize (WS rows eq_refl). rewrite Forall_forall in WS. apply WS. eapply nth_error_In. exact ER. }
    rewrite <- (row_mono m m0 row M0 W WR).
    replace zero_precomputed with (entry m0 z) by (symmetry; symmetry; apply (entry_of m0 z oz); assumption).
    rewrite select_loop_val. destruct (select_loop_h bAbs 0 row z) as [t|e|] eqn:Et; cbn [bind] in *; try reflexivity.
    assert (Lt : t < length (objs m0)).
    { apply select_loop_in in Et. destruct Et as [->|I]; [lia|]. rewrite Forall_forall in WR. specialize (WR _ I). lia. }
    destruct (nth_error (objs m0) t) as [e|] eqn:Ne; [|apply nth_error_None in Ne; lia].
    destruct (new_elem m0 PRECOMPUTED (Sh (ho_Y e)) (Sh (ho_X e)) (Fr (fe_neg (cell m0 (ho_Z e)))) None) as (m1, tM) eqn:EM.
    unfold g_cmov. unfold cmov_h in *. destruct (is_negative_ct k =? 1)%Z; cbn [bind] in *; [exfalso; now apply (NX (m1, tM))|].
    destruct (is_negative_ct k =? 0)%Z; cbn [bind] in *; [exfalso; now apply (NX (m1, t))|reflexivity]. }
  apply elem_result.
  - intros m1 r E. destruct (select_ok _ _ _ _ _ _ _ W N E) as (_ & _ & o' & N' & V). exists o', (hcore m1 o'). auto.
  - intros e E. exists e. refine (NOK (Err e) _ E). intros p F. rewrite E in F. discriminate F.
  - intros E. refine (NOK Panic _ E). intros p F. rewrite E in F. discriminate F.
Qed.
Lemma value_results b m : reachable b m ->
  (forall a o s, nth_error (objs m) a = Some o -> result (gstep b m (GScalarMultiply a s)) (g_scalarMultiply (hval m o) s)) /\
  (forall a o a2 o2 s t, nth_error (objs m) a = Some o -> nth_error (objs m) a2 = Some o2 ->
     result (gstep b m (GDoubleScalarMultiply a a2 s t)) (g_doubleScalarMultiply (hval m o) (hval m o2) s t) /\
     result (gstep b m (GAdd a a2)) (g_add (hcore m o) (hcore m o2)) /\
     result (gstep b m (GSubtract a a2)) (g_subtract (hcore m o) (hcore m o2)) /\
     result (gstep b m (GPrecomputedAdd a a2)) (g_precomputedAdd (hcore m o) (hcore m o2)) /\
     result (gstep b m (GPrecomputedSubtract a a2)) (g_precomputedSubtract (hcore m o) (hcore m o2))) /\
  (forall a o, nth_error (objs m) a = Some o ->
     result (gstep b m (GDbl a)) (g_dbl (hcore m o)) /\ result (gstep b m (GNegate a)) (g_negate (hcore m o))) /\
  (forall raw, result (gstep b m (GDecode raw)) (do e <- new_ege raw; g_decode e)).
Proof.
  intros R. destruct (reachable_base _ _ R) as (W & _). unfold gstep.
  split; [|split; [|split]].
  - intros a o s N. rewrite N. now apply fresh_result.
  - intros a o a2 o2 s t N N2. rewrite N, N2. repeat split; now apply fresh_result.
  - intros a o N. rewrite N. split; now apply fresh_result.
  - intros raw. now apply fresh_result.
Qed.
Lemma table_results b m a o : reachable b m -> nth_error (objs m) a = Some o ->
  (forall m' x, gstep b m (GCopy a) = Some (m', x) -> exists a' g, x = Some a' /\ g_copy (hval m o) = Ok g /\ holds m' a' g) /\
  (forall m' x, gstep b m (GPrecomputeSingle a) = Some (m', x) -> (exists e, g_precompute_single (hval m o) = Err e) \/
     exists g, g_precompute_single (hval m o) = Ok g /\ holds m' a g) /\
  (forall m' x, gstep b m (GPrecomputeDouble a) = Some (m', x) -> (exists e, g_precompute_double (hval m o) = Err e) \/
     exists g, g_precompute_double (hval m o) = Ok g /\ holds m' a g).
Proof.
  intros R N. destruct (reachable_base _ _ R) as (W & _). unfold gstep. rewrite N. split; [|split]; intros m' x E.
  - destruct (copy_h m o) as [(m1, a1)|e|] eqn:Ec; cbn [bind fst snd] in E; try discriminate E.
    + assert (m1 = m') as -> by congruence. assert (x = Some a1) as -> by congruence.
      destruct (copy_ok _ _ _ _ _ W N Ec) as (_ & _ & _ & o' & N' & V & _). exists a1, (hval m' o').
      split; [reflexivity|]. split; [assumption|]. now exists o'.
    + exfalso. unfold copy_h in Ec. destruct (g_copy (hval m o)) as [g|e'|] eqn:Eg; cbn [bind] in Ec; try discriminate Ec.
      clear -Eg. unfold g_copy in Eg. destruct (copy_rows _) as [s|e|] eqn:Er; cbn [bind] in Eg; try discriminate Eg.
      clear Eg. revert Er. generalize (match single (hval m o) with Some t => t | None => [] end). clear.
      intros l. revert e. induction l as [|r l IH]; intros e E; cbn [copy_rows] in E; [discriminate E|].
      unfold copy_row in E. destruct (Nat.ltb 8 (length r)); cbn [bind] in E; [discriminate E|].
      destruct (copy_rows l) as [s|e1|] eqn:El; cbn [bind] in E; try discriminate E. now apply (IH e1).
  - destruct (precompute_single_h m a o) as [m1|e|] eqn:Ec; cbn [bind] in E; try discriminate E.
    + assert (m1 = m') as -> by congruence. destruct (prec_single_ok _ _ _ _ W N Ec) as (_ & _ & o' & N' & V).
      right. exists (hval m' o'). split; [assumption|]. now exists o'.
    + left. unfold precompute_single_h in Ec. destruct (ho_single o); [discriminate Ec|].
      destruct (g_precompute_single (hval m o)) as [g|e'|]; cbn [bind] in Ec; try discriminate Ec; [|now exists e'].
      destruct (fresh_rows m _) as (m1, t) in Ec. discriminate Ec.
  - destruct (precompute_double_h m a o) as [m1|e|] eqn:Ec; cbn [bind] in E; try discriminate E.
    + assert (m1 = m') as -> by congruence. destruct (prec_double_ok _ _ _ _ W N Ec) as (_ & _ & o' & N' & V).
      right. exists (hval m' o'). split; [assumption|]. now exists o'.
    + left. unfold precompute_double_h in Ec. destruct (ho_double o) as [[|]|]; try discriminate Ec;
      (destruct (g_precompute_double (hval m o)) as [g|e'|]; cbn [bind] in Ec; try discriminate Ec; [|now exists e'];
       destruct (fresh_row m _) as (m1, t) in Ec; discriminate Ec).
Qed.

(** the package initialises *)
Lemma init_possible : exists m b, init_mem = Ok (m, b).
Proof.
  destruct base_both as (c & Eg & _). rewrite (init_install _ Eg). unfold install. cbn [single double core].
  destruct (fresh_rows (Mem [] []) base_single) as (m1, s) eqn:E1.
  destruct (fresh_row m1 base_double) as (m2, d) eqn:E2. destruct (fresh m2 c) as (m3, a) eqn:E3.
  assert (W0 : wf_mem (Mem [] [])) by constructor.
  destruct (fresh_rows_ok _ _ _ _ W0 E1) as (_ & W1 & _). destruct (fresh_row_ok _ _ _ _ W1 E2) as (_ & W2 & _).
  destruct (fresh_ok _ _ _ _ W2 E3) as (_ & _ & _ & o & N & _). rewrite N. now eexists _, _.
Qed.
Lemma reachable_exists : exists m b, reachable b m.
Proof. destruct init_possible as (m & b & E). exists m, b, m, []. split; [assumption|]. split; [constructor|reflexivity]. Qed.

(** ** The chains of calls in the leak theorems can be made *)
Lemma base_copy_possible b m o t : nth_error (objs m) b = Some o -> ho_single o = Some t ->
  Forall (fun r : list nat => length r <= 8) t -> exists m' a, gstep b m GBasePoint = Some (m', Some a).
Proof.
  intros N Es F. unfold gstep. rewrite N. unfold copy_h, g_copy, hval. cbn [single double]. rewrite Es. cbn [option_map].
  rewrite copy_rows_ok.
  - rewrite !bind_ok. unfold new_obj. cbn [fst snd]. now eexists _, _.
  - rewrite Forall_forall in *. intros r Hr. apply in_map_iff in Hr as (r0 & <- & Hr). rewrite map_length. now apply F.
Qed.
Lemma base_table_short m o c t : hval m o = Ge c (Some base_single) (Some base_double) -> ho_single o = Some t ->
  Forall (fun r : list nat => length r <= 8) t.
Proof.
  intros V Es. apply (f_equal single) in V. cbn [single hval] in V. rewrite Es in V. cbn [option_map] in V.
  assert (Q : forall x y : list (list gcore), Some x = Some y -> x = y) by (intros; congruence). apply Q in V.
  pose proof base_rows_8 as F. rewrite <- V in F. rewrite Forall_forall in *. intros r Hr.
  rewrite <- (map_length (entry m) r). apply F. now apply in_map.
Qed.
Lemma write_chain b m c f : reachable b m -> exists m1 a m2 m3 a',
  gstep b m GBasePoint = Some (m1, Some a) /\ gstep b m1 (GWrite a c f) = Some (m2, None) /\
  gstep b m2 GBasePoint = Some (m3, Some a').
Proof.
  intros R. destruct (base_constant _ _ R) as (m1 & a & _ & E1 & _).
  destruct (write_possible _ _ _ _ c f R E1) as (m2 & E2).
  destruct (base_step _ _ _ _ R E1) as (o & o1 & t & N & N1 & Na & W1 & M1 & P & CS & Es & _ & (cc & V & _)).
  pose proof E2 as E2'. unfold gstep in E2'. rewrite Na in E2'. destruct (coord_ptr o1 c) as [p|]; [|discriminate E2'].
  assert (m2 = set_cell m1 p f) as -> by congruence.
  destruct (base_copy_possible b (set_cell m1 p f) o t N1 Es (base_table_short _ _ _ _ V Es)) as (m3 & a' & E3).
  exists m1, a, (set_cell m1 p f), m3, a'. auto.
Qed.
Lemma select_chain b m pos k f : reachable b m -> pos < 32 -> 1 <= k <= 8 -> exists m1 a m2 r m3 m4 a',
  gstep b m GBasePoint = Some (m1, Some a) /\ gstep b m1 (GSelect a pos (Z.of_nat k)) = Some (m2, Some r) /\
  gstep b m2 (GWrite r CX f) = Some (m3, None) /\ gstep b m3 GBasePoint = Some (m4, Some a').
Proof.
  intros R Lp Lk. destruct (base_constant _ _ R) as (m1 & a & g & E1 & Eb & (oa & Na & Va)).
  destruct base_both as (c0 & _ & Eb' & Rc). rewrite Eb' in Eb.
  assert (Q : forall x y : ge, Ok x = Ok y -> x = y) by (intros; congruence). apply Q in Eb. clear Eb' Q. subst g.
  pose proof (reachable_step b m GBasePoint m1 (Some a) R I E1) as R1.
  destruct (base_step _ _ _ _ R E1) as (o & o1 & t & N & N1 & Na' & W1 & M1 & P & CS & Es & _ & (cc & V & _)).
  assert (H : exists r, g_select (hval m1 oa) pos (Z.of_nat k) = Ok r).
  { rewrite Va. destruct (ScalarMul.g_select_ok (Ge c0 (Some base_single) (Some base_double)) base_single Bpt pos (Z.of_nat k) eq_refl TableProofs.base_single_ok Lp) as (r & E & _); [lia|].
    now exists r. }
  destruct H as (gr & Hr). pose proof (select_result _ _ _ _ pos (Z.of_nat k) R1 Na) as K. rewrite Hr in K.
  destruct (gstep b m1 (GSelect a pos (Z.of_nat k))) as [(m2, [r|])|] eqn:E2; cbn [result] in K; try contradiction.
  destruct K as (or & Nr & _).
  assert (E3 : gstep b m2 (GWrite r CX f) = Some (set_cell m2 (ho_X or) f, None)) by (unfold gstep; rewrite Nr; reflexivity).
  assert (N2 : nth_error (objs m2) b = Some o).
  { unfold gstep in E2. rewrite Na in E2. destruct (select_h m1 oa pos (Z.of_nat k)) as [(m2', r')|e|] eqn:Esel; rewrite ?bind_ok in E2; cbn [fst snd] in E2; try discriminate E2.
    assert (m2' = m2) as -> by congruence. clear E2 E3. unfold select_h in Esel. cbv zeta in Esel.
    destruct (fresh m1 zero_precomputed) as (m0, z) eqn:Ez. destruct (ho_single oa) as [rows|]; [|discriminate Esel].
    destruct (nth_error rows pos) as [row|]; [|discriminate Esel]. apply bind_inv in Esel. destruct Esel as (t1 & _ & Esel).
    destruct (nth_error (objs m0) t1) as [e|]; [|discriminate Esel].
    destruct (new_elem m0 PRECOMPUTED (Sh (ho_Y e)) (Sh (ho_X e)) (Fr (fe_neg (cell m0 (ho_Z e)))) None) as (m1', tM) eqn:EM.
    apply bind_inv in Esel. destruct Esel as (r2 & _ & Esel).
    assert (Q : forall p q : mem * nat, Ok p = Ok q -> p = q) by (intros; congruence). apply Q in Esel.
    apply pair_equal_spec in Esel. destruct Esel as (-> & _).
    apply (new_elem_keeps _ _ _ _ _ _ _ _ EM). now apply (fresh_keeps _ _ _ _ Ez). }
  destruct (base_copy_possible b (set_cell m2 (ho_X or) f) o t N2 Es (base_table_short _ _ _ _ V Es)) as (m4 & a' & E4).
  exists m1, a, m2, r, (set_cell m2 (ho_X or) f), m4, a'. auto.
Qed.

(** ** What a write from outside does not change *)
Lemma set_cell_other m p f q : p < length (cells m) -> q <> p -> cell (set_cell m p f) q = cell m q.
Proof.
  intros L D. unfold cell, set_cell. cbn [cells]. generalize dependent q. generalize dependent p. generalize (cells m). clear.
  intros l. induction l as [|x l IH]; intros [|p] L [|q] D; cbn in L; try lia; try reflexivity.
  cbn. apply (IH p); lia.
Qed.
Lemma coord_ptr_in m o c p : wf_obj m o -> coord_ptr o c = Some p -> p < length (cells m).
Proof. intros (A & B & C & D & _) E. destruct c; cbn [coord_ptr] in E; try (injection E as <-; assumption). now apply D. Qed.
Lemma write_only b m a o c f m' x : reachable b m -> nth_error (objs m) a = Some o -> gstep b m (GWrite a c f) = Some (m', x) ->
  exists p, coord_ptr o c = Some p /\ forall a2 o2, nth_error (objs m) a2 = Some o2 ->
    nth_error (objs m') a2 = Some o2 /\ forall c2,
    (coord_ptr o2 c2 = Some p -> get_coord (hcore m' o2) c2 = Some f) /\
    (coord_ptr o2 c2 <> Some p -> get_coord (hcore m' o2) c2 = get_coord (hcore m o2) c2).
Proof.
  intros R N E. destruct (reachable_base _ _ R) as (W & _). unfold gstep in E. rewrite N in E.
  destruct (coord_ptr o c) as [p|] eqn:Ep; [|discriminate E]. exists p. split; [reflexivity|].
  assert (m' = set_cell m p f) as -> by congruence. clear E.
  pose proof (coord_ptr_in _ _ _ _ (wf_at _ _ _ W N) Ep) as Lp. intros a2 o2 N2. split; [exact N2|].
  intros c2. rewrite !get_coord_ptr. split.
  - intros ->. cbn [option_map]. f_equal. now apply set_cell_at.
  - intros D. destruct (coord_ptr o2 c2) as [q|]; [|reflexivity]. cbn [option_map]. f_equal.
    apply set_cell_other; [assumption|]. intros ->. now apply D.
Qed.
(** the coordinates of a new element are new *)
Lemma fresh_ptrs m g m' a : fresh m g = (m', a) -> a = length (objs m) /\
  exists o, nth_error (objs m') a = Some o /\ forall c p, coord_ptr o c = Some p -> length (cells m) <= p < length (cells m').
Proof.
  unfold fresh, new_elem, new_obj. destruct (gT g) as [t|]; cbn [put put_opt option_map cells objs]; intros E; injection E as <- <-; cbn [objs cells];
    (split; [reflexivity|]; eexists; split; [apply nth_error_snoc|]; intros c p; destruct c; cbn [coord_ptr ho_X ho_Y ho_Z ho_T]; intros H;
     try discriminate H; injection H as <-; rewrite !app_length; cbn [length]; lia).
Qed.
Lemma makes_new_fresh b m op m1 r : makes_new op -> gstep b m op = Some (m1, Some r) -> exists g, fresh m g = (m1, r).
Proof.
  assert (V : forall x : res gcore, match (do g <- x; let (m', a) := fresh m g in Ok (m', Some a)) with
     | Ok y => Some y | Err _ => Some (m, None) | Panic => None end = Some (m1, Some r) -> exists g, fresh m g = (m1, r)).
  { intros [g|e|]; cbn [bind]; intros H; try discriminate H. exists g. destruct (fresh m g) as (m', a). congruence. }
  intros K E. destruct op; cbn [makes_new] in K; try contradiction K; unfold gstep in E.
  all: try (apply V in E; exact E).
  all: repeat match type of E with match nth_error ?l ?i with Some _ => _ | None => _ end = _ => destruct (nth_error l i); [|discriminate E] end.
  all: try (apply V in E; exact E).
  all: match type of E with context [nth_error ?l ?i] => destruct (nth_error l i); [|discriminate E] end; apply V in E; exact E.
Qed.
Lemma hval_write m p f o : (forall c, coord_ptr o c <> Some p) ->
  (forall a o2, nth_error (objs m) a = Some o2 -> forall c, coord_ptr o2 c = Some p -> a = pred (length (objs m))) ->
  (forall t, ho_single o = Some t -> Forall (Forall (fun a => a < pred (length (objs m)))) t) ->
  (forall t, ho_double o = Some t -> Forall (fun a => a < pred (length (objs m))) t) ->
  p < length (cells m) -> hval (set_cell m p f) o = hval m o.
Proof.
  intros H0 H1 Hs Hd Lp.
  assert (C : forall o2, (forall c, coord_ptr o2 c <> Some p) -> hcore (set_cell m p f) o2 = hcore m o2).
  { intros o2 D. unfold hcore.
    assert (Q : forall c q, coord_ptr o2 c = Some q -> cell (set_cell m p f) q = cell m q).
    { intros c q Hq. apply set_cell_other; [assumption|]. intros ->. now apply (D c). }
    rewrite (Q CX _ eq_refl), (Q CY _ eq_refl), (Q CZ _ eq_refl).
    f_equal. pose proof (D CT) as DT. cbn [coord_ptr] in DT. destruct (ho_T o2) as [q|]; [|reflexivity]. cbn [option_map]. f_equal.
    apply set_cell_other; [assumption|]. congruence. }
  assert (En : forall a, a < pred (length (objs m)) -> entry (set_cell m p f) a = entry m a).
  { intros a L. unfold entry. cbn [set_cell objs]. destruct (nth_error (objs m) a) as [o2|] eqn:N; [|reflexivity].
    apply C. intros c Hc. specialize (H1 a o2 N c Hc). lia. }
  unfold hval. rewrite C by assumption. f_equal.
  - destruct (ho_single o) as [t|]; [|reflexivity]. cbn [option_map]. f_equal. apply map_ext_in. intros r Hr. apply map_ext_in.
    intros a Ha. apply En. specialize (Hs t eq_refl). rewrite Forall_forall in Hs. specialize (Hs r Hr). rewrite Forall_forall in Hs. auto.
  - destruct (ho_double o) as [t|]; [|reflexivity]. cbn [option_map]. f_equal. apply map_ext_in. intros a Ha. apply En.
    specialize (Hd t eq_refl). rewrite Forall_forall in Hd. auto.
Qed.
Lemma write_to_new b m op m1 r c f m2 x : reachable b m -> makes_new op -> gstep b m op = Some (m1, Some r) ->
  gstep b m1 (GWrite r c f) = Some (m2, x) -> forall a g, holds m a g -> holds m2 a g.
Proof.
  intros R K E1 E2 a g (o & N & V). destruct (reachable_base _ _ R) as (W & _).
  destruct (makes_new_fresh _ _ _ _ _ K E1) as (v & Ef).
  destruct (fresh_ptrs _ _ _ _ Ef) as (Ar & or & Nr & Pr). destruct (fresh_ok _ _ _ _ W Ef) as (M & W1 & _ & _ & _ & _ & _ & _ & L1).
  unfold gstep in E2. rewrite Nr in E2. destruct (coord_ptr or c) as [p|] eqn:Ep; [|discriminate E2].
  assert (m2 = set_cell m1 p f) as -> by congruence. clear E2. specialize (Pr _ _ Ep).
  pose proof (fresh_keeps _ _ _ _ Ef) as KP. exists o. split; [exact (KP _ _ N)|].
  pose proof (wf_at _ _ _ W N) as Wo. rewrite <- V, <- (hval_mono m m1 o M W Wo). destruct Wo as (X1 & X2 & X3 & X4 & X5 & X6).
  assert (Lo : pred (length (objs m1)) = length (objs m)) by lia.
  apply hval_write; rewrite ?Lo; try assumption; try lia.
  - intros c1 H. assert (p < length (cells m)); [|lia].
    apply (coord_ptr_in m o c1); [|assumption]. repeat split; auto.
  - intros a2 o2 N2 c2 H. destruct (lt_dec a2 (length (objs m))) as [L|L].
    + destruct (nth_error (objs m) a2) as [o3|] eqn:N3; [|apply nth_error_None in N3; lia].
      rewrite (KP _ _ N3) in N2. injection N2 as <-. pose proof (coord_ptr_in m o3 c2 p (wf_at _ _ _ W N3) H). lia.
    + assert (a2 < length (objs m1)) by (apply nth_error_Some; congruence). lia.
Qed.
Lemma write_to_new_chain b m c f : reachable b m -> c <> CT -> exists m0 a m1 r m2,
  gstep b m GBasePoint = Some (m0, Some a) /\ gstep b m0 (GDbl a) = Some (m1, Some r) /\ gstep b m1 (GWrite r c f) = Some (m2, None).
Proof.
  intros R Hc. destruct (base_constant _ _ R) as (m0 & a & g & E1 & Eb & (oa & Na & Va)).
  destruct base_both as (c0 & _ & Eb' & Rc). rewrite Eb' in Eb.
  assert (Q : forall x y : ge, Ok x = Ok y -> x = y) by (intros; congruence). apply Q in Eb. clear Eb' Q. subst g.
  pose proof (reachable_step b m GBasePoint m0 (Some a) R I E1) as R1.
  destruct (value_results b m0 R1) as (_ & _ & K & _). destruct (K a oa Na) as (K1 & _). clear K.
  assert (H : exists v, g_dbl (hcore m0 oa) = Ok v).
  { apply (f_equal core) in Va. cbn [core hval] in Va. rewrite Va. unfold g_dbl. destruct Rc as (-> & _). now eexists. }
  destruct H as (v & Hv). rewrite Hv in K1.
  destruct (gstep b m0 (GDbl a)) as [(m1, [r|])|] eqn:E2; cbn [result] in K1; try contradiction.
  destruct K1 as (or & Nr & _). exists m0, a, m1, r.
  assert (E3 : exists m2, gstep b m1 (GWrite r c f) = Some (m2, None)).
  { unfold gstep. rewrite Nr. destruct c; [| | |now contradiction Hc]; cbn [coord_ptr]; now eexists. }
  destruct E3 as (m2 & E3). exists m2. auto.
Qed.

(** ** What a conversion shares *)
Lemma new_elem_ptrs m cs x y z t m' a : new_elem m cs x y z t = (m', a) -> a = length (objs m) /\
  length (objs m') = S (length (objs m)) /\
  exists o, nth_error (objs m') a = Some o /\ forall c p, coord_ptr o c = Some p ->
    match match c with CX => Some x | CY => Some y | CZ => Some z | CT => t end with
    | Some (Sh q) => p = q | Some (Fr _) => length (cells m) <= p < length (cells m') | None => False end.
Proof.
  unfold new_elem, new_obj.
  destruct x as [x|x], y as [y|y], z as [z|z], t as [[t|t]|]; cbn [put put_opt option_map cells objs]; intros E; injection E as <- <-; cbn [objs cells];
    (split; [reflexivity|]; split; [rewrite app_length; cbn [length]; lia|]; eexists; split; [apply nth_error_snoc|]; intros c p; destruct c; cbn [coord_ptr ho_X ho_Y ho_Z ho_T]; intros H;
     try discriminate H; injection H as <-; rewrite ?app_length; cbn [length]; try reflexivity; lia).
Qed.
Lemma new_elem_stays m cs x y z t m' a o n : new_elem m cs x y z t = (m', a) ->
  (forall c, stays (ho_cs o) n c -> match match c with CX => Some x | CY => Some y | CZ => Some z | CT => t end with
     | Some (Sh q) => coord_ptr o c = Some q | Some (Fr _) => False | None => True end) ->
  (forall c, ~ stays (ho_cs o) n c -> match match c with CX => Some x | CY => Some y | CZ => Some z | CT => t end with
     | Some (Sh q) => False | _ => True end) ->
  a = length (objs m) /\ length (objs m') = S (length (objs m)) /\ keeps m m' /\
  exists o', nth_error (objs m') a = Some o' /\ forall c p, coord_ptr o' c = Some p ->
    (stays (ho_cs o) n c -> coord_ptr o c = Some p) /\ (~ stays (ho_cs o) n c -> length (cells m) <= p < length (cells m')).
Proof.
  intros E H1 H2. destruct (new_elem_ptrs _ _ _ _ _ _ _ _ E) as (-> & L & o' & N & K).
  split; [reflexivity|]. split; [exact L|]. split; [exact (new_elem_keeps _ _ _ _ _ _ _ _ E)|]. exists o'. split; [exact N|].
  intros c p H. specialize (K c p H). specialize (H1 c). specialize (H2 c). revert K H1 H2.
  match goal with |- match ?x with _ => _ end -> _ => destruct x as [[q|f]|] end; intros K H1 H2; [subst q| |contradiction].
  - split; [exact H1|]. intros X. elim (H2 X).
  - split; [intros X; elim (H1 X)|]. intros _. exact K.
Qed.
Lemma to_cs_ptrs m o n m' a : to_cs_h m o n = Ok (m', a) ->
  a = length (objs m) /\ length (objs m') = S (length (objs m)) /\ keeps m m' /\
  exists o', nth_error (objs m') a = Some o' /\ forall c p, coord_ptr o' c = Some p ->
    (stays (ho_cs o) n c -> coord_ptr o c = Some p) /\ (~ stays (ho_cs o) n c -> length (cells m) <= p < length (cells m')).
Proof.
  unfold to_cs_h. cbv zeta. destruct (to_cs (hcore m o) n) as [v|e|]; cbn [bind]; intros E; try discriminate E.
  assert (Q : forall u w : mem * nat, Ok u = Ok w -> u = w) by (intros; congruence). apply Q in E. clear Q. revert E.
  assert (Fr3 : fresh m v = (m', a) -> (forall c, ~ stays (ho_cs o) n c) ->
    a = length (objs m) /\ length (objs m') = S (length (objs m)) /\ keeps m m' /\
    exists o', nth_error (objs m') a = Some o' /\ forall c p, coord_ptr o' c = Some p ->
      (stays (ho_cs o) n c -> coord_ptr o c = Some p) /\ (~ stays (ho_cs o) n c -> length (cells m) <= p < length (cells m'))).
  { intros E K. apply (new_elem_stays _ _ _ _ _ _ _ _ o n E); intros c X; [elim (K c X)|]. destruct c; cbv iota; try exact I. destruct (gT v); exact I. }
  destruct (ho_cs o) eqn:Ec, n; intros E;
    first [apply (Fr3 E); intros c X; exact X | rewrite <- Ec; apply (new_elem_stays _ _ _ _ _ _ _ _ o _ E); rewrite Ec].
  all: intros c; destruct c; cbn [stays coord_ptr]; cbv iota; intros X; try exact I; try reflexivity; try (elim (X I)); try discriminate X.
  all: try (elim (X eq_refl)).
  all: try (destruct (gT v); exact I).
  all: destruct (ho_T o); cbn [option_map]; try reflexivity; try exact I.
Qed.
Lemma conversion b m a o n m1 r c f m2 x : reachable b m -> nth_error (objs m) a = Some o -> gstep b m (GToCs a n) = Some (m1, Some r) ->
  gstep b m1 (GWrite r c f) = Some (m2, x) ->
  (stays (ho_cs o) n c -> get_coord (hcore m2 o) c = Some f) /\ (~ stays (ho_cs o) n c -> forall a2 g, holds m a2 g -> holds m2 a2 g).
Proof.
  intros R N E1 E2. destruct (reachable_base _ _ R) as (W & _).
  unfold gstep in E1. rewrite N in E1. destruct (to_cs_h m o n) as [(m1', r')|e|] eqn:Ef; try discriminate E1.
  cbn [bind fst snd] in E1. assert (m1' = m1 /\ r' = r) as [-> ->] by (split; congruence). clear E1.
  destruct (to_cs_ptrs _ _ _ _ _ Ef) as (Ar & L1 & KP & or & Nr & Pr).
  destruct (to_cs_ok _ _ _ _ _ _ W N Ef) as (M & W1 & _).
  unfold gstep in E2. rewrite Nr in E2. destruct (coord_ptr or c) as [p|] eqn:Ep; [|discriminate E2].
  assert (m2 = set_cell m1 p f) as -> by congruence. clear E2. destruct (Pr _ _ Ep) as (P1 & P2).
  pose proof (coord_ptr_in _ _ _ _ (wf_at _ _ _ W1 Nr) Ep) as Lp. split.
  - intros X. rewrite get_coord_ptr, (P1 X). cbn [option_map]. f_equal. now apply set_cell_at.
  - intros X a2 g (o2 & N2 & V). specialize (P2 X). exists o2. split; [exact (KP _ _ N2)|].
    pose proof (wf_at _ _ _ W N2) as Wo. rewrite <- V, <- (hval_mono m m1 o2 M W Wo). destruct Wo as (X1 & X2 & X3 & X4 & X5 & X6).
    assert (Lo : pred (length (objs m1)) = length (objs m)) by lia.
    apply hval_write; rewrite ?Lo; try assumption.
    + intros c1 H. assert (p < length (cells m)); [|lia]. apply (coord_ptr_in m o2 c1); [|assumption]. repeat split; auto.
    + intros a3 o3 N3 c2 H. destruct (lt_dec a3 (length (objs m))) as [L|L].
      * destruct (nth_error (objs m) a3) as [o4|] eqn:N4; [|apply nth_error_None in N4; lia].
        rewrite (KP _ _ N4) in N3. injection N3 as <-. pose proof (coord_ptr_in m o4 c2 p (wf_at _ _ _ W N4) H). lia.
      * assert (a3 < length (objs m1)) by (apply nth_error_Some; congruence). lia.
Qed.
Lemma conversion_chain b m c f : reachable b m -> c <> CT -> exists m0 a o m1 r m2,
  gstep b m GBasePoint = Some (m0, Some a) /\ nth_error (objs m0) a = Some o /\ stays (ho_cs o) P2 c /\
  gstep b m0 (GToCs a P2) = Some (m1, Some r) /\ gstep b m1 (GWrite r c f) = Some (m2, None).
Proof.
  intros R Hc. destruct (base_constant _ _ R) as (m0 & a & g & E1 & Eb & (oa & Na & Va)).
  destruct base_both as (c0 & _ & Eb' & Rc). rewrite Eb' in Eb.
  assert (Q : forall x y : ge, Ok x = Ok y -> x = y) by (intros; congruence). apply Q in Eb. clear Eb' Q. subst g.
  pose proof (reachable_step b m GBasePoint m0 (Some a) R I E1) as R1.
  pose proof (to_cs_result b m0 a oa P2 R1 Na) as K1.
  assert (C3 : ho_cs oa = P3).
  { apply (f_equal core) in Va. cbn [core hval] in Va. apply (f_equal g_cs) in Va. destruct Rc as (C & _). rewrite C in Va. exact Va. }
  assert (H : exists v, to_cs (hcore m0 oa) P2 = Ok v).
  { unfold to_cs, hcore. cbn [g_cs]. rewrite C3. eexists. reflexivity. }
  destruct H as (v & Hv). rewrite Hv in K1.
  destruct (gstep b m0 (GToCs a P2)) as [(m1, [r|])|] eqn:E2; cbn [result] in K1; try contradiction.
  destruct K1 as (or & Nr & _). exists m0, a, oa, m1, r.
  assert (E3 : exists m2, gstep b m1 (GWrite r c f) = Some (m2, None)).
  { unfold gstep. rewrite Nr. destruct c; [| | |now contradiction Hc]; cbn [coord_ptr]; now eexists. }
  destruct E3 as (m2 & E3). exists m2. split; [exact E1|]. split; [exact Na|]. split; [rewrite C3; exact I|]. split; [exact E2|exact E3].
Qed.
