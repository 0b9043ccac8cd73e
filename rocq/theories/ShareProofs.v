(** Proofs about [ShareModel]. *)
From Coq Require Import List ZArith Lia Bool Arith.
From Verif Require Import GoBase FieldModel GroupModel ApiModel AliasProofs ShareModel ShareSpec.
Import ListNotations.
Open Scope nat_scope.

(** same element, possibly with tables it did not have *)
Definition same_obj (o o' : hobj) : Prop :=
  ho_cs o' = ho_cs o /\ ho_X o' = ho_X o /\ ho_Y o' = ho_Y o /\ ho_Z o' = ho_Z o /\ ho_T o' = ho_T o /\
  (forall t, ho_single o = Some t -> ho_single o' = Some t) /\
  (forall x t, ho_double o = Some (x :: t) -> ho_double o' = Some (x :: t)).
Definition mono (m m' : mem) : Prop :=
  (exists e, cells m' = cells m ++ e) /\
  (forall a o, nth_error (objs m) a = Some o -> exists o', nth_error (objs m') a = Some o' /\ same_obj o o').

Lemma same_obj_refl o : same_obj o o.
Proof. unfold same_obj. repeat split; auto. Qed.
Lemma same_obj_trans a b c : same_obj a b -> same_obj b c -> same_obj a c.
Proof.
  intros (A1 & A2 & A3 & A4 & A5 & A6 & A7) (B1 & B2 & B3 & B4 & B5 & B6 & B7).
  repeat split; try congruence; intros; auto.
Qed.
Lemma mono_refl m : mono m m.
Proof. split; [exists []; now rewrite app_nil_r|]. intros a o E. exists o. split; [assumption|apply same_obj_refl]. Qed.
Lemma mono_trans a b c : mono a b -> mono b c -> mono a c.
Proof.
  intros ((e & A) & B) ((f & C) & D). split; [exists (e ++ f); rewrite C, A; now rewrite app_assoc|].
  intros i o E. destruct (B i o E) as (o1 & E1 & S1). destruct (D i o1 E1) as (o2 & E2 & S2).
  exists o2. split; [assumption|]. eapply same_obj_trans; eassumption.
Qed.
Lemma mono_objs m m' : mono m m' -> length (objs m) <= length (objs m').
Proof.
  intros (_ & B). destruct (le_lt_dec (length (objs m)) (length (objs m'))) as [L|L]; [assumption|].
  assert (X : nth_error (objs m) (length (objs m')) <> None) by (apply nth_error_Some; assumption).
  destruct (nth_error (objs m) (length (objs m'))) as [o|] eqn:E; [|congruence].
  destruct (B _ _ E) as (o' & E' & _).
  assert (length (objs m') < length (objs m')) by (apply nth_error_Some; congruence). lia.
Qed.
Lemma mono_cells m m' : mono m m' -> length (cells m) <= length (cells m').
Proof. intros ((e & A) & _). rewrite A, app_length. lia. Qed.
Lemma cell_mono m m' p : mono m m' -> p < length (cells m) -> cell m' p = cell m p.
Proof. intros ((e & A) & _) L. unfold cell. rewrite A. now apply app_nth1. Qed.

Lemma wf_obj_mono m m' o : mono m m' -> wf_obj m o -> wf_obj m' o.
Proof.
  intros M (A & B & C & D & E & F). pose proof (mono_objs _ _ M). pose proof (mono_cells _ _ M).
  unfold wf_obj. repeat split; try lia.
  - intros p Hp. specialize (D p Hp). lia.
  - intros t Ht. eapply Forall_impl; [|exact (E t Ht)]. intros r. apply Forall_impl. cbn beta. intros; lia.
  - intros t Ht. eapply Forall_impl; [|exact (F t Ht)]. cbn beta. intros; lia.
Qed.
Lemma hcore_mono m m' o o' : mono m m' -> wf_obj m o -> same_obj o o' -> hcore m' o' = hcore m o.
Proof.
  intros M (A & B & C & D & _) (S1 & S2 & S3 & S4 & S5 & _). unfold hcore. rewrite S1, S2, S3, S4, S5.
  rewrite !(cell_mono m m') by assumption. f_equal. destruct (ho_T o) as [p|]; [|reflexivity]. cbn.
  now rewrite (cell_mono m m') by auto.
Qed.
Lemma wf_at m a o : wf_mem m -> nth_error (objs m) a = Some o -> wf_obj m o.
Proof. intros W E. apply nth_error_In in E. unfold wf_mem in W. rewrite Forall_forall in W. auto. Qed.
Lemma entry_mono m m' a : mono m m' -> wf_mem m -> a < length (objs m) -> entry m' a = entry m a.
Proof.
  intros M W L. unfold entry. destruct (nth_error (objs m) a) as [o|] eqn:E.
  - destruct M as (M1 & M2). destruct (M2 a o E) as (o' & E' & S'). rewrite E'.
    apply (hcore_mono m m' o o'); [split; assumption|now apply (wf_at m a)|assumption].
  - apply nth_error_None in E. lia.
Qed.
Lemma row_mono m m' l : mono m m' -> wf_mem m -> Forall (fun a => a < length (objs m)) l ->
  map (entry m') l = map (entry m) l.
Proof.
  intros M W F. apply map_ext_in. intros a Ha. apply entry_mono; try assumption. rewrite Forall_forall in F. auto.
Qed.
Lemma rows_mono m m' l : mono m m' -> wf_mem m -> Forall (Forall (fun a => a < length (objs m))) l ->
  map (map (entry m')) l = map (map (entry m)) l.
Proof.
  intros M W F. apply map_ext_in. intros r Hr. apply row_mono; try assumption. rewrite Forall_forall in F. auto.
Qed.
(** an unchanged element keeps its value *)
Lemma hval_mono m m' o : mono m m' -> wf_mem m -> wf_obj m o -> hval m' o = hval m o.
Proof.
  intros M W Wo. unfold hval. rewrite (hcore_mono m m' o o) by (assumption || apply same_obj_refl).
  destruct Wo as (_ & _ & _ & _ & E & F). f_equal.
  - destruct (ho_single o) as [t|]; [|reflexivity]. cbn. f_equal. apply rows_mono; auto.
  - destruct (ho_double o) as [t|]; [|reflexivity]. cbn. f_equal. apply row_mono; auto.
Qed.
(** an element with both tables keeps its value *)
Lemma hval_tables m m' o o' t x d : mono m m' -> wf_mem m -> wf_obj m o -> same_obj o o' ->
  ho_single o = Some t -> ho_double o = Some (x :: d) -> hval m' o' = hval m o.
Proof.
  intros M W Wo So Et Ed. rewrite <- (hval_mono m m' o M W Wo). unfold hval.
  rewrite (hcore_mono m m' o o' M Wo So), <- (hcore_mono m m' o o M Wo (same_obj_refl o)).
  destruct So as (_ & _ & _ & _ & _ & S6 & S7). rewrite (S6 _ Et), (S7 _ _ Ed), Et, Ed. reflexivity.
Qed.

(** ** New elements *)
Lemma nth_error_snoc {A} (l : list A) x : nth_error (l ++ [x]) (length l) = Some x.
Proof. rewrite nth_error_app2, Nat.sub_diag by lia. reflexivity. Qed.
Lemma put_ok m s m' p : put m s = (m', p) -> (forall q, s = Sh q -> q < length (cells m)) ->
  mono m m' /\ objs m' = objs m /\ p < length (cells m') /\
  cell m' p = match s with Sh q => cell m q | Fr f => f end.
Proof.
  destruct s as [q|f]; cbn; intros E L; injection E as <- <-.
  - split; [apply mono_refl|]. split; [reflexivity|]. split; [now apply L|reflexivity].
  - split.
    + split; [now exists [f]|]. intros a o E. exists o. split; [assumption|apply same_obj_refl].
    + split; [reflexivity|]. unfold cell. cbn. rewrite app_length, app_nth2, Nat.sub_diag by lia. cbn. split; [lia|reflexivity].
Qed.
Lemma wf_mem_same m m' : mono m m' -> objs m' = objs m -> wf_mem m -> wf_mem m'.
Proof.
  intros M E W. unfold wf_mem in *. rewrite E. eapply Forall_impl; [|exact W]. intros o. now apply wf_obj_mono.
Qed.
Lemma new_obj_ok m o m' a : wf_mem m -> wf_obj m o -> new_obj m o = (m', a) ->
  mono m m' /\ wf_mem m' /\ a = length (objs m) /\ nth_error (objs m') a = Some o /\ hval m' o = hval m o /\
  cells m' = cells m /\ objs m' = objs m ++ [o].
Proof.
  intros W Wo E. unfold new_obj in E. injection E as <- <-.
  assert (M : mono m (Mem (cells m) (objs m ++ [o]))).
  { split; [exists []; cbn; now rewrite app_nil_r|]. intros a p E. exists p. split; [|apply same_obj_refl].
    cbn. rewrite nth_error_app1; [assumption|]. apply nth_error_Some. congruence. }
  split; [exact M|]. split.
  - unfold wf_mem. cbn [objs]. apply Forall_app. split; [|constructor; [|constructor]].
    + eapply Forall_impl; [|exact W]. intros p. now apply wf_obj_mono.
    + now apply (wf_obj_mono m).
  - split; [reflexivity|]. split; [apply nth_error_snoc|]. split; [now apply hval_mono|]. split; reflexivity.
Qed.
Definition src_val (m : mem) (s : src) : fe := match s with Sh q => cell m q | Fr f => f end.
Definition src_ok (m : mem) (s : src) : Prop := forall q, s = Sh q -> q < length (cells m).
Lemma src_mono m m' s : mono m m' -> src_ok m s -> src_ok m' s /\ src_val m' s = src_val m s.
Proof.
  intros M K. pose proof (mono_cells _ _ M). split.
  - intros q Hq. specialize (K q Hq). lia.
  - destruct s as [q|f]; [|reflexivity]. cbn. apply cell_mono; [assumption|]. now apply K.
Qed.
Lemma new_elem_ok m c x y z t m' a : wf_mem m -> src_ok m x -> src_ok m y -> src_ok m z ->
  (forall s, t = Some s -> src_ok m s) -> new_elem m c x y z t = (m', a) ->
  mono m m' /\ wf_mem m' /\ a = length (objs m) /\
  exists o, nth_error (objs m') a = Some o /\ ho_single o = None /\ ho_double o = None /\
    hval m' o = new_ge (G c (src_val m x) (src_val m y) (src_val m z) (option_map (src_val m) t)) /\
    length (objs m') = S (length (objs m)).
Proof.
  intros W Kx Ky Kz Kt E. unfold new_elem in E.
  destruct (put m x) as (m1, px) eqn:E1. destruct (put_ok _ _ _ _ E1 Kx) as (M1 & O1 & L1 & V1).
  destruct (put m1 y) as (m2, py) eqn:E2.
  destruct (src_mono _ _ y M1 Ky) as (Ky' & Vy). destruct (put_ok _ _ _ _ E2 Ky') as (M2 & O2 & L2 & V2).
  destruct (put m2 z) as (m3, pz) eqn:E3.
  destruct (src_mono _ _ z (mono_trans _ _ _ M1 M2) Kz) as (Kz' & Vz). destruct (put_ok _ _ _ _ E3 Kz') as (M3 & O3 & L3 & V3).
  destruct (put_opt m3 t) as (m4, pt) eqn:E4.
  assert (M03 : mono m m3) by (eapply mono_trans; [eapply mono_trans|]; eassumption).
  assert (T : mono m3 m4 /\ objs m4 = objs m3 /\ (forall p, pt = Some p -> p < length (cells m4)) /\
              option_map (cell m4) pt = option_map (src_val m) t).
  { destruct t as [s|]; cbn in E4.
    - destruct (put m3 s) as (m5, p) eqn:E5. injection E4 as <- <-.
      destruct (src_mono _ _ s M03 (Kt s eq_refl)) as (Ks & Vs). destruct (put_ok _ _ _ _ E5 Ks) as (M5 & O5 & L5 & V5).
      split; [assumption|]. split; [assumption|]. split; [intros p' Hp; injection Hp as <-; assumption|].
      cbn. f_equal. rewrite V5. exact Vs.
    - injection E4 as <- <-. split; [apply mono_refl|]. split; [reflexivity|]. split; [discriminate|reflexivity]. }
  destruct T as (M4 & O4 & L4 & V4).
  assert (M14 : mono m1 m4) by (eapply mono_trans; [eapply mono_trans|]; eassumption).
  assert (M24 : mono m2 m4) by (eapply mono_trans; eassumption).
  assert (M04 : mono m m4) by (eapply mono_trans; eassumption).
  assert (OO : objs m4 = objs m) by congruence.
  pose proof (wf_mem_same _ _ M04 OO W) as W4.
  apply new_obj_ok in E; [|assumption|].
  - destruct E as (M5 & W5 & A & N & V & C5 & O5). split; [eapply mono_trans; eassumption|]. split; [assumption|].
    split; [congruence|]. eexists. split; [exact N|]. split; [reflexivity|]. split; [reflexivity|]. split.
    + rewrite V. unfold hval, hcore, new_ge. cbn [ho_cs ho_X ho_Y ho_Z ho_T ho_single ho_double option_map].
      f_equal. f_equal.
      * rewrite (cell_mono m1 m4) by assumption. exact V1.
      * rewrite (cell_mono m2 m4) by assumption. rewrite V2. exact Vy.
      * rewrite (cell_mono m3 m4) by assumption. rewrite V3. exact Vz.
      * exact V4.
    + rewrite O5, app_length, OO. cbn. lia.
  - unfold wf_obj. cbn [ho_cs ho_X ho_Y ho_Z ho_T ho_single ho_double].
    pose proof (mono_cells _ _ M14). pose proof (mono_cells _ _ M24). pose proof (mono_cells _ _ M4).
    repeat split; try lia; try discriminate. assumption.
Qed.
Lemma fresh_ok m g m' a : wf_mem m -> fresh m g = (m', a) ->
  mono m m' /\ wf_mem m' /\ a = length (objs m) /\
  exists o, nth_error (objs m') a = Some o /\ ho_single o = None /\ ho_double o = None /\ hval m' o = new_ge g /\
    length (objs m') = S (length (objs m)).
Proof.
  intros W E. unfold fresh in E. apply new_elem_ok in E; try assumption; try (intros q Hq; discriminate).
  - destruct E as (M & W' & A & o & N & S1 & S2 & V & L). split; [assumption|]. split; [assumption|]. split; [assumption|].
    exists o. repeat (split; [assumption|]). split; [|assumption]. rewrite V. unfold new_ge. cbn [src_val].
    destruct g as [c x y z [t|]]; reflexivity.
  - intros s Hs q Hq. destruct (gT g); cbn in Hs; [|discriminate]. injection Hs as <-. discriminate.
Qed.
Lemma entry_of m a o g : nth_error (objs m) a = Some o -> hval m o = new_ge g -> entry m a = g.
Proof. intros N V. unfold entry. rewrite N. now apply (f_equal core) in V. Qed.
Lemma fresh_row_ok l : forall m m' r, wf_mem m -> fresh_row m l = (m', r) ->
  mono m m' /\ wf_mem m' /\ Forall (fun a => length (objs m) <= a < length (objs m')) r /\ map (entry m') r = l.
Proof.
  induction l as [|g l IH]; intros m m' r W E; cbn [fresh_row] in E.
  - injection E as <- <-. split; [apply mono_refl|]. split; [assumption|]. split; [constructor|reflexivity].
  - destruct (fresh m g) as (m1, a) eqn:E1. destruct (fresh_row m1 l) as (m2, l') eqn:E2. injection E as <- <-.
    destruct (fresh_ok _ _ _ _ W E1) as (M1 & W1 & A & o & N & _ & _ & V & L).
    destruct (IH _ _ _ W1 E2) as (M2 & W2 & F & Q). pose proof (mono_objs _ _ M2).
    split; [eapply mono_trans; eassumption|]. split; [assumption|]. split.
    + constructor; [lia|]. eapply Forall_impl; [|exact F]. cbn. intros. lia.
    + cbn [map]. f_equal; [|exact Q]. rewrite (entry_mono m1 m2) by (try assumption; lia). now apply (entry_of m1 a o).
Qed.
Lemma fresh_rows_ok l : forall m m' r, wf_mem m -> fresh_rows m l = (m', r) ->
  mono m m' /\ wf_mem m' /\ Forall (Forall (fun a => length (objs m) <= a < length (objs m'))) r /\ map (map (entry m')) r = l.
Proof.
  induction l as [|g l IH]; intros m m' r W E; cbn [fresh_rows] in E.
  - injection E as <- <-. split; [apply mono_refl|]. split; [assumption|]. split; [constructor|reflexivity].
  - destruct (fresh_row m g) as (m1, a) eqn:E1. destruct (fresh_rows m1 l) as (m2, l') eqn:E2. injection E as <- <-.
    destruct (fresh_row_ok _ _ _ _ W E1) as (M1 & W1 & F1 & Q1).
    destruct (IH _ _ _ W1 E2) as (M2 & W2 & F & Q). pose proof (mono_objs _ _ M2). pose proof (mono_objs _ _ M1).
    split; [eapply mono_trans; eassumption|]. split; [assumption|]. split.
    + constructor; [eapply Forall_impl; [|exact F1]; cbn; intros; lia|].
      eapply Forall_impl; [|exact F]. intros r. apply Forall_impl. cbn beta. intros. lia.
    + cbn [map]. f_equal; [|exact Q]. rewrite <- Q1. apply row_mono; try assumption.
      eapply Forall_impl; [|exact F1]. cbn. intros. lia.
Qed.

(** making elements does not touch the others *)
Definition keeps (m m' : mem) : Prop := forall a o, nth_error (objs m) a = Some o -> nth_error (objs m') a = Some o.
Lemma put_objs m s m' p : put m s = (m', p) -> objs m' = objs m.
Proof. destruct s; cbn; intros E; injection E as <- _; reflexivity. Qed.
Lemma new_elem_keeps m c x y z t m' a : new_elem m c x y z t = (m', a) -> keeps m m'.
Proof.
  unfold new_elem. destruct (put m x) as (m1, px) eqn:E1. destruct (put m1 y) as (m2, py) eqn:E2.
  destruct (put m2 z) as (m3, pz) eqn:E3. destruct (put_opt m3 t) as (m4, pt) eqn:E4.
  apply put_objs in E1. apply put_objs in E2. apply put_objs in E3.
  assert (E5 : objs m4 = objs m3).
  { destruct t as [s|]; cbn in E4; [|injection E4 as <- _; reflexivity].
    destruct (put m3 s) as (m5, p) eqn:E6. apply put_objs in E6. injection E4 as <- _. assumption. }
  intros E. unfold new_obj in E. injection E as <- _. intros b o H. cbn [objs]. rewrite E5, E3, E2, E1.
  rewrite nth_error_app1; [assumption|]. apply nth_error_Some. congruence.
Qed.
Lemma fresh_keeps m g m' a : fresh m g = (m', a) -> keeps m m'.
Proof. apply new_elem_keeps. Qed.
Lemma fresh_row_keeps l : forall m m' r, fresh_row m l = (m', r) -> keeps m m'.
Proof.
  induction l as [|g l IH]; intros m m' r E; cbn [fresh_row] in E; [injection E as <- _; intros a o H; assumption|].
  destruct (fresh m g) as (m1, a) eqn:E1. destruct (fresh_row m1 l) as (m2, l') eqn:E2. injection E as <- _.
  intros b o H. apply (IH _ _ _ E2). now apply (fresh_keeps _ _ _ _ E1).
Qed.
Lemma fresh_rows_keeps l : forall m m' r, fresh_rows m l = (m', r) -> keeps m m'.
Proof.
  induction l as [|g l IH]; intros m m' r E; cbn [fresh_rows] in E; [injection E as <- _; intros a o H; assumption|].
  destruct (fresh_row m g) as (m1, a) eqn:E1. destruct (fresh_rows m1 l) as (m2, l') eqn:E2. injection E as <- _.
  intros b o H. apply (IH _ _ _ E2). now apply (fresh_row_keeps _ _ _ _ E1).
Qed.

(** a new table for an element that had none *)
Lemma nth_error_set {A} (l : list A) a o b : a < length l ->
  nth_error (firstn a l ++ [o] ++ skipn (S a) l) b = if b =? a then Some o else nth_error l b.
Proof.
  revert a b. induction l as [|x l IH]; intros [|a] [|b] L; cbn in *; try lia; try reflexivity. rewrite IH by lia. reflexivity.
Qed.
Lemma length_set {A} (l : list A) a o : a < length l -> length (firstn a l ++ [o] ++ skipn (S a) l) = length l.
Proof. intros L. rewrite !app_length, firstn_length, skipn_length. cbn [length]. lia. Qed.
Lemma set_obj_mono m a o o' : nth_error (objs m) a = Some o -> same_obj o o' -> wf_mem m -> wf_obj m o' ->
  mono m (set_obj m a o') /\ wf_mem (set_obj m a o') /\ nth_error (objs (set_obj m a o')) a = Some o'.
Proof.
  intros E So W Wo. assert (L : a < length (objs m)) by (apply nth_error_Some; congruence).
  assert (M : mono m (set_obj m a o')).
  { split; [exists []; cbn; now rewrite app_nil_r|]. intros b p Hp. cbn [set_obj objs].
    rewrite nth_error_set by assumption. destruct (Nat.eqb_spec b a) as [->|N].
    - exists o'. split; [reflexivity|]. congruence.
    - exists p. split; [assumption|apply same_obj_refl]. }
  split; [exact M|]. split.
  - unfold wf_mem in *. rewrite Forall_forall in *. intros p Hp. apply In_nth_error in Hp. destruct Hp as (b & Hb).
    cbn [set_obj objs] in Hb. rewrite nth_error_set in Hb by assumption.
    destruct (Nat.eqb_spec b a) as [Eb|N].
    + injection Hb as <-. now apply (wf_obj_mono m).
    + apply nth_error_In in Hb. apply (wf_obj_mono m); auto.
  - cbn [set_obj objs]. rewrite nth_error_set by assumption. now rewrite Nat.eqb_refl.
Qed.

(** ** Calls *)
Lemma copy_ok m a o m' b : wf_mem m -> nth_error (objs m) a = Some o -> copy_h m o = Ok (m', b) ->
  mono m m' /\ wf_mem m' /\ b = length (objs m) /\
  exists o', nth_error (objs m') b = Some o' /\ g_copy (hval m o) = Ok (hval m' o') /\
    ho_X o' = ho_X o /\ ho_Y o' = ho_Y o /\ ho_Z o' = ho_Z o /\ ho_T o' = ho_T o /\
    (forall t, ho_single o = Some t -> ho_single o' = Some t) /\ (forall t, ho_double o = Some t -> ho_double o' = Some t).
Proof.
  intros W N E. unfold copy_h in E. apply bind_inv in E. destruct E as (g & Eg & E).
  pose proof (wf_at _ _ _ W N) as Wo.
  match type of E with Ok (new_obj m ?o') = _ => set (oc := o') in * end.
  assert (Wc : wf_obj m oc).
  { destruct Wo as (A & B & C & D & F & K). unfold wf_obj, oc. cbn [ho_X ho_Y ho_Z ho_T ho_single ho_double].
    repeat split; try assumption.
    - intros t Ht. injection Ht as <-. destruct (ho_single o); [now apply F|constructor].
    - intros t Ht. injection Ht as <-. destruct (ho_double o); [now apply K|constructor]. }
  assert (Q : forall p q : mem * nat, Ok p = Ok q -> p = q) by (intros; congruence). apply Q in E. clear Q.
  apply new_obj_ok in E; try assumption. destruct E as (M & W' & A & N' & V & C & O).
  split; [assumption|]. split; [assumption|]. split; [assumption|]. exists oc. split; [assumption|].
  split; [|unfold oc; cbn [ho_X ho_Y ho_Z ho_T ho_single ho_double]; repeat (split; [reflexivity|]);
           split; intros t Ht; now rewrite Ht].
  rewrite V. unfold g_copy in *. unfold hval at 1 2 3 in Eg. unfold hval at 1 2 3.
  cbn [single double core] in *.
  assert (CR : forall rows x, copy_rows rows = Ok x -> x = rows).
  { clear. induction rows as [|r rows IH]; intros x E; cbn in E; [congruence|].
    apply bind_inv in E. destruct E as (r' & E1 & E). apply bind_inv in E. destruct E as (rs & E2 & E).
    unfold copy_row in E1. destruct (Nat.ltb 8 (length r)); [discriminate|]. apply IH in E2. congruence. }
  apply bind_inv in Eg. destruct Eg as (s & Es & _). rewrite Es. cbn [bind]. apply CR in Es.
  unfold hval, oc, hcore. cbn [ho_cs ho_X ho_Y ho_Z ho_T ho_single ho_double option_map]. f_equal. f_equal.
  - f_equal. rewrite Es. destruct (ho_single o); reflexivity.
  - f_equal. destruct (ho_double o); reflexivity.
Qed.

Lemma to_cs_ok m a o n m' b : wf_mem m -> nth_error (objs m) a = Some o -> to_cs_h m o n = Ok (m', b) ->
  mono m m' /\ wf_mem m' /\ b = length (objs m) /\
  exists o' g, nth_error (objs m') b = Some o' /\ to_cs (hcore m o) n = Ok g /\ hval m' o' = new_ge g.
Proof.
  intros W N E. pose proof (wf_at _ _ _ W N) as (A & B & C & D & _). unfold to_cs_h in E. cbv zeta in E.
  apply bind_inv in E. destruct E as (g & Eg & E).
  assert (Q : forall p q : mem * nat, Ok p = Ok q -> p = q) by (intros; congruence). apply Q in E. clear Q.
  assert (KX : src_ok m (Sh (ho_X o))) by (intros q Hq; injection Hq as <-; assumption).
  assert (KY : src_ok m (Sh (ho_Y o))) by (intros q Hq; injection Hq as <-; assumption).
  assert (KZ : src_ok m (Sh (ho_Z o))) by (intros q Hq; injection Hq as <-; assumption).
  assert (KT : forall s, option_map Sh (ho_T o) = Some s -> src_ok m s).
  { intros s Hs q Hq. destruct (ho_T o) as [p|] eqn:ET; [|discriminate]. cbn in Hs. injection Hs as <-. injection Hq as <-. now apply D. }
  assert (KN : forall s, None = Some s -> src_ok m s) by (intros; discriminate).
  assert (KF : forall f, src_ok m (Fr f)) by (intros f q Hq; discriminate).
  assert (KG : forall s, option_map Fr (gT g) = Some s -> src_ok m s).
  { intros s Hs. destruct (gT g); cbn in Hs; [|discriminate]. injection Hs as <-. apply KF. }
  assert (F : fresh m g = (m', b) -> mono m m' /\ wf_mem m' /\ b = length (objs m) /\
     exists o' g0, nth_error (objs m') b = Some o' /\ to_cs (hcore m o) n = Ok g0 /\ hval m' o' = new_ge g0).
  { intros E'. destruct (fresh_ok _ _ _ _ W E') as (M & W' & L & o' & N' & _ & _ & V & _).
    split; [assumption|]. split; [assumption|]. split; [assumption|]. exists o', g. auto. }
  assert (NE : forall c x y z t, src_ok m x -> src_ok m y -> src_ok m z -> (forall s, t = Some s -> src_ok m s) ->
     new_elem m c x y z t = (m', b) -> G c (src_val m x) (src_val m y) (src_val m z) (option_map (src_val m) t) = g ->
     mono m m' /\ wf_mem m' /\ b = length (objs m) /\
     exists o' g0, nth_error (objs m') b = Some o' /\ to_cs (hcore m o) n = Ok g0 /\ hval m' o' = new_ge g0).
  { intros c x y z t K1 K2 K3 K4 E' V'. destruct (new_elem_ok _ _ _ _ _ _ _ _ W K1 K2 K3 K4 E') as (M & W' & L & o' & N' & _ & _ & V & _).
    split; [assumption|]. split; [assumption|]. split; [assumption|]. exists o', g. split; [assumption|]. split; [assumption|].
    now rewrite V, V'. }
  assert (ST : option_map (src_val m) (option_map Sh (ho_T o)) = option_map (cell m) (ho_T o)) by (destruct (ho_T o); reflexivity).
  clear -E F NE KX KY KZ KT KN KF KG ST Eg.
  assert (OKI : forall x y : gcore, Ok x = Ok y -> x = y) by (intros; congruence).
  unfold to_cs in Eg. change (g_cs (hcore m o)) with (ho_cs o) in Eg.
  destruct (ho_cs o), n; try discriminate Eg; try exact (F E);
    (eapply NE; [| | | |exact E|]; try assumption; try apply KF;
         first [apply bind_inv in Eg; destruct Eg as (T & ET & Eg); apply OKI in Eg; rewrite <- Eg; reflexivity
               |apply OKI in Eg; rewrite <- Eg; unfold hcore; cbn [gX gY gZ gT]; cbn [src_val option_map newP2 newPrecomputed];
                rewrite ?ST; reflexivity]).
Qed.

Lemma cmov_val m r u b : g_cmov (entry m r) (entry m u) b = (do x <- cmov_h r u b; Ok (entry m x)).
Proof. unfold g_cmov, cmov_h. destruct (b =? 1)%Z; [reflexivity|]. destruct (b =? 0)%Z; reflexivity. Qed.
Lemma select_loop_val m bAbs row : forall i t,
  select_loop bAbs i (map (entry m) row) (entry m t) = (do x <- select_loop_h bAbs i row t; Ok (entry m x)).
Proof.
  induction row as [|el row IH]; intros i t; cbn [map select_loop select_loop_h]; [reflexivity|].
  rewrite cmov_val. destruct (cmov_h t el (is_byte_eq_ct bAbs (i + 1))) as [t'|e|]; cbn [bind]; [apply IH|reflexivity|reflexivity].
Qed.
Lemma cmov_in r u b x : cmov_h r u b = Ok x -> x = r \/ x = u.
Proof.
  unfold cmov_h. destruct (b =? 1)%Z; [intros E; right; congruence|]. destruct (b =? 0)%Z; [intros E; left; congruence|discriminate].
Qed.
Lemma select_loop_in bAbs row : forall i t x, select_loop_h bAbs i row t = Ok x -> x = t \/ In x row.
Proof.
  induction row as [|el row IH]; intros i t x E; cbn [select_loop_h] in E; [left; congruence|].
  apply bind_inv in E. destruct E as (t' & E1 & E2). apply cmov_in in E1. apply IH in E2. cbn [In]. intuition (subst; auto).
Qed.
Lemma nth_error_map' {A B} (f : A -> B) l n : nth_error (map f l) n = option_map f (nth_error l n).
Proof. revert n; induction l as [|x l IH]; intros [|n]; cbn; auto. Qed.

Lemma select_ok m a o pos b m' r : wf_mem m -> nth_error (objs m) a = Some o -> select_h m o pos b = Ok (m', r) ->
  mono m m' /\ wf_mem m' /\ exists o', nth_error (objs m') r = Some o' /\ g_select (hval m o) pos b = Ok (hcore m' o').
Proof.
  intros W N E. pose proof (wf_at _ _ _ W N) as (_ & _ & _ & _ & WS & _). unfold select_h in E. cbv zeta in E.
  unfold g_select. cbv zeta.
  set (bAbs := (b - Z.shiftl (Z.land (- is_negative_ct b) b) 1)%Z) in *.
  destruct (fresh m zero_precomputed) as (m0, z) eqn:Ez.
  destruct (fresh_ok _ _ _ _ W Ez) as (M0 & W0 & Az & oz & Nz & _ & _ & Vz & Lz).
  unfold hval. cbn [single]. destruct (ho_single o) as [rows|] eqn:ES; [|discriminate]. cbn [option_map].
  rewrite nth_error_map'. destruct (nth_error rows pos) as [row|] eqn:ER; [|discriminate]. cbn [option_map].
  assert (WR : Forall (fun a => a < length (objs m)) row).
  { specialize (WS rows eq_refl). rewrite Forall_forall in WS. apply WS. eapply nth_error_In. exact ER. }
  rewrite <- (row_mono m m0 row M0 W WR).
  replace zero_precomputed with (entry m0 z) by (symmetry; symmetry; apply (entry_of m0 z oz); assumption).
  rewrite select_loop_val. apply bind_inv in E. destruct E as (t & Et & E). rewrite Et. cbn [bind].
  assert (Lt : t < length (objs m0)).
  { apply select_loop_in in Et. destruct Et as [->|I]; [lia|]. rewrite Forall_forall in WR. specialize (WR _ I). lia. }
  destruct (nth_error (objs m0) t) as [e|] eqn:Ne; [|discriminate].
  pose proof (wf_at _ _ _ W0 Ne) as We. pose proof We as (WX & WY & WZ & _).
  destruct (new_elem m0 PRECOMPUTED (Sh (ho_Y e)) (Sh (ho_X e)) (Fr (fe_neg (cell m0 (ho_Z e)))) None) as (m1, tM) eqn:EM.
  apply bind_inv in E. destruct E as (r' & Er & E).
  assert (Q : forall p q : mem * nat, Ok p = Ok q -> p = q) by (intros; congruence). apply Q in E.
  apply pair_equal_spec in E. destruct E as (-> & ->). clear Q.
  apply new_elem_ok in EM; try assumption; try (intros q Hq; discriminate); try (intros q Hq; injection Hq as <-; assumption).
  destruct EM as (M1 & W1 & A1 & oM & NM & _ & _ & VM & L1).
  assert (EE : entry m0 t = hcore m0 e) by (unfold entry; now rewrite Ne).
  assert (ET : entry m' t = entry m0 t) by (apply entry_mono; assumption).
  assert (EtM : entry m' tM = newPrecomputed (gY (entry m0 t)) (gX (entry m0 t)) (fe_neg (gZ (entry m0 t)))).
  { apply (entry_of _ tM oM _ NM). rewrite VM, EE. reflexivity. }
  rewrite <- EtM, <- ET, cmov_val, Er. cbn [bind].
  assert (Lr : r < length (objs m')).
  { apply cmov_in in Er. destruct Er as [Er|Er]; rewrite Er; lia. }
  split; [eapply mono_trans; eassumption|]. split; [assumption|].
  destruct (nth_error (objs m') r) as [or|] eqn:Nr; [|apply nth_error_None in Nr; lia].
  exists or. split; [reflexivity|]. unfold entry. now rewrite Nr.
Qed.

Lemma prec_single_ok m a o m' : wf_mem m -> nth_error (objs m) a = Some o -> precompute_single_h m a o = Ok m' ->
  mono m m' /\ wf_mem m' /\ exists o', nth_error (objs m') a = Some o' /\ g_precompute_single (hval m o) = Ok (hval m' o').
Proof.
  intros W N E. pose proof (wf_at _ _ _ W N) as Wo. unfold precompute_single_h in E.
  destruct (ho_single o) as [t|] eqn:ES.
  - assert (m' = m) as -> by congruence. split; [apply mono_refl|]. split; [assumption|]. exists o. split; [assumption|].
    unfold g_precompute_single, hval at 1. cbn [single]. rewrite ES. reflexivity.
  - apply bind_inv in E. destruct E as (g & Eg & E).
    assert (SG : exists rows, g = Ge (hcore m o) (Some rows) (double (hval m o))).
    { unfold g_precompute_single, hval at 1 in Eg. cbn [single] in Eg. rewrite ES in Eg. cbn [option_map] in Eg.
      apply bind_inv in Eg. destruct Eg as (b & _ & Eg). apply bind_inv in Eg. destruct Eg as (rows & _ & Eg).
      exists rows. assert (Q : forall x y : ge, Ok x = Ok y -> y = x) by (intros; congruence). apply Q in Eg. exact Eg. }
    destruct SG as (rows & ->). cbn [single] in E.
    destruct (fresh_rows m rows) as (m1, t) eqn:Ef. destruct (fresh_rows_ok _ _ _ _ W Ef) as (M1 & W1 & F1 & V1).
    assert (Q : forall x y : mem, Ok x = Ok y -> y = x) by (intros; congruence). apply Q in E. clear Q.
    assert (N1 : nth_error (objs m1) a = Some o) by (apply (fresh_rows_keeps rows m m1 t Ef); assumption).
    match type of E with _ = set_obj m1 a ?x => set (on := x) in * end.
    assert (SO : same_obj o on).
    { unfold same_obj, on. cbn [ho_cs ho_X ho_Y ho_Z ho_T ho_single ho_double]. repeat (split; [reflexivity|]).
      split; [intros t' Ht'; congruence|auto]. }
    assert (Wn : wf_obj m1 on).
    { pose proof (wf_obj_mono _ _ _ M1 Wo) as (A & B & C & D & _ & K).
      unfold wf_obj, on. cbn [ho_X ho_Y ho_Z ho_T ho_single ho_double]. repeat split; try assumption.
      intros t' Ht'. injection Ht' as <-. eapply Forall_impl; [|exact F1]. intros r. apply Forall_impl. cbn beta. intros. lia. }
    destruct (set_obj_mono m1 a o on N1 SO W1 Wn) as (M2 & W2 & N2). rewrite <- E in *.
    split; [eapply mono_trans; eassumption|]. split; [assumption|]. exists on. split; [assumption|].
    rewrite Eg. f_equal. rewrite (hval_mono m1 m' on M2 W1 Wn). unfold hval. f_equal.
    + symmetry. apply (hcore_mono m m1 o on); assumption.
    + unfold on. cbn [ho_single option_map]. now rewrite V1.
    + unfold on. cbn [ho_double double]. destruct (ho_double o) as [d|] eqn:ED; [|reflexivity]. cbn [option_map].
      f_equal. symmetry. apply row_mono; try assumption. destruct Wo as (_ & _ & _ & _ & _ & K). now apply K.
Qed.
Lemma prec_double_ok m a o m' : wf_mem m -> nth_error (objs m) a = Some o -> precompute_double_h m a o = Ok m' ->
  mono m m' /\ wf_mem m' /\ exists o', nth_error (objs m') a = Some o' /\ g_precompute_double (hval m o) = Ok (hval m' o').
Proof.
  intros W N E. pose proof (wf_at _ _ _ W N) as Wo. unfold precompute_double_h in E.
  assert (KEY : (forall x t, ho_double o <> Some (x :: t)) ->
    (do g <- g_precompute_double (hval m o);
      let (m1, t) := fresh_row m (match double g with Some t => t | None => [] end) in
      Ok (set_obj m1 a (HO (ho_cs o) (ho_X o) (ho_Y o) (ho_Z o) (ho_T o) (ho_single o) (Some t)))) = Ok m' ->
    mono m m' /\ wf_mem m' /\ exists o', nth_error (objs m') a = Some o' /\ g_precompute_double (hval m o) = Ok (hval m' o')).
  2:{ destruct (ho_double o) as [[|x t]|] eqn:ED.
      - apply KEY; [discriminate|exact E].
      - assert (m' = m) as -> by congruence. split; [apply mono_refl|]. split; [assumption|]. exists o. split; [assumption|].
        unfold g_precompute_double, hval at 1. cbn [double]. rewrite ED. reflexivity.
      - apply KEY; [discriminate|exact E]. }
  clear E. intros ND E. apply bind_inv in E. destruct E as (g & Eg & E).
  assert (SG : exists row, g = Ge (hcore m o) (single (hval m o)) (Some row)).
  { unfold g_precompute_double, hval at 1 in Eg. cbn [double] in Eg.
    assert (Eg' : (do b <- g_copy (hval m o); do l <- prec_double_loop 8 (core (hval m o)) (core b); Ok (Ge (core (hval m o)) (single (hval m o)) (Some l))) = Ok g).
    { destruct (ho_double o) as [[|x t]|]; [exact Eg|exfalso; now apply (ND x t)|exact Eg]. }
    clear Eg. apply bind_inv in Eg'. destruct Eg' as (b & _ & Eg). apply bind_inv in Eg. destruct Eg as (row & _ & Eg).
    exists row. assert (Q : forall x y : ge, Ok x = Ok y -> y = x) by (intros; congruence). apply Q in Eg. exact Eg. }
  destruct SG as (row & ->). cbn [double] in E.
  destruct (fresh_row m row) as (m1, t) eqn:Ef. destruct (fresh_row_ok _ _ _ _ W Ef) as (M1 & W1 & F1 & V1).
  assert (Q : forall x y : mem, Ok x = Ok y -> y = x) by (intros; congruence). apply Q in E. clear Q.
  assert (N1 : nth_error (objs m1) a = Some o) by (apply (fresh_row_keeps row m m1 t Ef); assumption).
  match type of E with _ = set_obj m1 a ?x => set (on := x) in * end.
  assert (SO : same_obj o on).
  { unfold same_obj, on. cbn [ho_cs ho_X ho_Y ho_Z ho_T ho_single ho_double]. repeat (split; [reflexivity|]).
    split; [auto|intros x t' Ht'; exfalso; now apply (ND x t')]. }
  assert (Wn : wf_obj m1 on).
  { pose proof (wf_obj_mono _ _ _ M1 Wo) as (A & B & C & D & K & _).
    unfold wf_obj, on. cbn [ho_X ho_Y ho_Z ho_T ho_single ho_double]. repeat split; try assumption.
    intros t' Ht'. injection Ht' as <-. eapply Forall_impl; [|exact F1]. cbn beta. intros. lia. }
  destruct (set_obj_mono m1 a o on N1 SO W1 Wn) as (M2 & W2 & N2). rewrite <- E in *.
  split; [eapply mono_trans; eassumption|]. split; [assumption|]. exists on. split; [assumption|].
  rewrite Eg. f_equal. rewrite (hval_mono m1 m' on M2 W1 Wn). unfold hval. f_equal.
  + symmetry. apply (hcore_mono m m1 o on); assumption.
  + unfold on. cbn [ho_single single]. destruct (ho_single o) as [d|] eqn:ED; [|reflexivity]. cbn [option_map].
    f_equal. symmetry. apply rows_mono; try assumption. destruct Wo as (_ & _ & _ & _ & K & _). now apply K.
  + unfold on. cbn [ho_double option_map]. now rewrite V1.
Qed.

(** ** Histories *)
Lemma fresh_step m (r : res gcore) m' x : wf_mem m ->
  (do g <- r; let (m1, a) := fresh m g in Ok (m1, Some a)) = Ok (m', x) ->
  mono m m' /\ wf_mem m' /\ exists a o g, x = Some a /\ r = Ok g /\ nth_error (objs m') a = Some o /\ hval m' o = new_ge g.
Proof.
  intros W E. apply bind_inv in E. destruct E as (g & Eg & E). destruct (fresh m g) as (m1, a) eqn:Ef.
  injection E as <- <-. destruct (fresh_ok _ _ _ _ W Ef) as (M & W' & _ & o & N & _ & _ & V & _).
  split; [assumption|]. split; [assumption|]. exists a, o, g. auto.
Qed.
Lemma gstep_mono base m o m' x : wf_mem m -> library_call o -> gstep base m o = Some (m', x) -> mono m m' /\ wf_mem m'.
Proof.
  intros W LC E. unfold gstep in E.
  assert (AT : forall a (f : hobj -> res (mem * option nat)),
    (forall p m1 x1, nth_error (objs m) a = Some p -> f p = Ok (m1, x1) -> mono m m1 /\ wf_mem m1) ->
    match nth_error (objs m) a with None => None
    | Some p => match f p with Ok r => Some r | Err _ => Some (m, None) | Panic => None end end = Some (m', x) ->
    mono m m' /\ wf_mem m').
  { intros a f K E'. destruct (nth_error (objs m) a) as [p|] eqn:Np; [|discriminate].
    destruct (f p) as [(m1, x1)|e|] eqn:Ef; try discriminate.
    - injection E' as <- <-. now apply (K p m1 x1).
    - injection E' as <- _. split; [apply mono_refl|assumption]. }
  assert (EL : forall (r : res (mem * nat)), (forall m1 b, r = Ok (m1, b) -> mono m m1 /\ wf_mem m1) ->
    forall m1 x1, (do y <- r; Ok (fst y, Some (snd y))) = Ok (m1, x1) -> mono m m1 /\ wf_mem m1).
  { intros r K m1 x1 E'. apply bind_inv in E'. destruct E' as ((m2, b) & Er & E'). cbn [fst snd] in E'.
    injection E' as <- _. now apply (K m2 b). }
  assert (VA : forall (r : res gcore) m1 x1, (do g <- r; let (m2, a) := fresh m g in Ok (m2, Some a)) = Ok (m1, x1) ->
    mono m m1 /\ wf_mem m1).
  { intros r m1 x1 E'. destruct (fresh_step _ _ _ _ W E') as (A & B & _). auto. }
  destruct o as [|a|a n|a pos b|a|a|a s|a b s t|a b|a b|a b|a b|a|a|raw|a c f]; cbn [library_call] in LC; try contradiction.
  - revert E. apply AT. intros p m1 x1 Np. apply EL. intros m2 b Ec. destruct (copy_ok _ _ _ _ _ W Np Ec) as (A & B & _). auto.
  - revert E. apply AT. intros p m1 x1 Np. apply EL. intros m2 b Ec. destruct (copy_ok _ _ _ _ _ W Np Ec) as (A & B & _). auto.
  - revert E. apply AT. intros p m1 x1 Np. apply EL. intros m2 b Ec. destruct (to_cs_ok _ _ _ _ _ _ W Np Ec) as (A & B & _). auto.
  - revert E. apply AT. intros p m1 x1 Np. apply EL. intros m2 b' Ec. destruct (select_ok _ _ _ _ _ _ _ W Np Ec) as (A & B & _). auto.
  - revert E. apply AT. intros p m1 x1 Np E. apply bind_inv in E. destruct E as (m2 & Ec & E). injection E as <- _.
    destruct (prec_single_ok _ _ _ _ W Np Ec) as (A & B & _). auto.
  - revert E. apply AT. intros p m1 x1 Np E. apply bind_inv in E. destruct E as (m2 & Ec & E). injection E as <- _.
    destruct (prec_double_ok _ _ _ _ W Np Ec) as (A & B & _). auto.
  - revert E. apply AT. intros p m1 x1 Np. apply VA.
  - revert E. apply AT. intros p m1 x1 Np. destruct (nth_error (objs m) b); [apply VA|discriminate].
  - revert E. apply AT. intros p m1 x1 Np. destruct (nth_error (objs m) b); [apply VA|discriminate].
  - revert E. apply AT. intros p m1 x1 Np. destruct (nth_error (objs m) b); [apply VA|discriminate].
  - revert E. apply AT. intros p m1 x1 Np. destruct (nth_error (objs m) b); [apply VA|discriminate].
  - revert E. apply AT. intros p m1 x1 Np. destruct (nth_error (objs m) b); [apply VA|discriminate].
  - revert E. apply AT. intros p m1 x1 Np. apply VA.
  - revert E. apply AT. intros p m1 x1 Np. apply VA.
  - destruct (do g <- (do e <- new_ege raw; g_decode e); let (m2, a) := fresh m g in Ok (m2, Some a)) as [(m1, x1)|e|] eqn:Ed;
      try discriminate.
    + injection E as <- <-. now apply (VA _ _ _ Ed).
    + injection E as <- _. split; [apply mono_refl|assumption].
Qed.
Lemma grun_mono base os : forall m m', wf_mem m -> Forall library_call os -> grun base m os = Some m' -> mono m m' /\ wf_mem m'.
Proof.
  induction os as [|o os IH]; intros m m' W F E; cbn [grun] in E.
  - injection E as <-. split; [apply mono_refl|assumption].
  - inversion F as [|? ? F1 F2]; subst. destruct (gstep base m o) as [(m1, x)|] eqn:E1; [|discriminate].
    destruct (gstep_mono _ _ _ _ _ W F1 E1) as (M1 & W1). destruct (IH _ _ W1 F2 E) as (M2 & W2).
    split; [eapply mono_trans; eassumption|assumption].
Qed.

Lemma install_ok g m b s x d : single g = Some s -> double g = Some (x :: d) -> install g = Ok (m, b) ->
  wf_mem m /\ exists o t y d', nth_error (objs m) b = Some o /\ hval m o = g /\ ho_single o = Some t /\ ho_double o = Some (y :: d').
Proof.
  intros Es Ed E. unfold install in E. rewrite Es, Ed in E.
  assert (W0 : wf_mem (Mem [] [])) by constructor.
  destruct (fresh_rows (Mem [] []) s) as (m1, ts) eqn:E1. destruct (fresh_rows_ok _ _ _ _ W0 E1) as (M1 & W1 & F1 & V1).
  destruct (fresh_row m1 (x :: d)) as (m2, td) eqn:E2. destruct (fresh_row_ok _ _ _ _ W1 E2) as (M2 & W2 & F2 & V2).
  destruct (fresh m2 (core g)) as (m3, a) eqn:E3. destruct (fresh_ok _ _ _ _ W2 E3) as (M3 & W3 & A3 & o & N3 & S3 & D3 & V3 & L3).
  rewrite N3 in E. pose proof (mono_objs _ _ M3). pose proof (mono_objs _ _ M2).
  match type of E with Ok (set_obj m3 a ?x, _) = _ => set (on := x) in * end.
  assert (SO : same_obj o on).
  { unfold same_obj, on. cbn [ho_cs ho_X ho_Y ho_Z ho_T ho_single ho_double]. repeat (split; [reflexivity|]).
    split; intros; congruence. }
  assert (Wn : wf_obj m3 on).
  { pose proof (wf_at _ _ _ W3 N3) as (A & B & C & D & _).
    unfold wf_obj, on. cbn [ho_X ho_Y ho_Z ho_T ho_single ho_double]. repeat split; try assumption.
    - intros t' Ht'. injection Ht' as <-. eapply Forall_impl; [|exact F1]. intros r. apply Forall_impl. cbn beta. intros. lia.
    - intros t' Ht'. injection Ht' as <-. eapply Forall_impl; [|exact F2]. cbn beta. intros. lia. }
  destruct (set_obj_mono m3 a o on N3 SO W3 Wn) as (M4 & W4 & N4).
  assert (Q : forall p q : mem * nat, Ok p = Ok q -> p = q) by (intros; congruence). apply Q in E.
  apply pair_equal_spec in E. destruct E as (<- & <-). split; [assumption|].
  destruct td as [|y td]; [discriminate V2|].
  exists on, ts, y, td. split; [assumption|]. split; [|split; reflexivity].
  rewrite (hval_mono m3 _ on M4 W3 Wn). destruct g as [cg sg dg]. cbn [core single double] in *. subst sg dg.
  unfold hval. f_equal.
  - rewrite (hcore_mono m3 m3 o on (mono_refl m3) (wf_at _ _ _ W3 N3) SO). now apply (f_equal core) in V3.
  - unfold on. cbn [ho_single option_map]. f_equal. rewrite <- V1.
    apply rows_mono; [eapply mono_trans; eassumption|assumption|].
    eapply Forall_impl; [|exact F1]. intros r. apply Forall_impl. cbn beta. intros. lia.
  - unfold on. cbn [ho_double option_map]. f_equal. rewrite <- V2.
    apply row_mono; [assumption|assumption|]. eapply Forall_impl; [|exact F2]. cbn beta. intros. lia.
Qed.
