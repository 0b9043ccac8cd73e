(** Lemmas for C80: what holds of every history of calls on one group element. *)
From Coq Require Import List ZArith Lia Bool.
From Verif Require Import GoBase FieldModel GroupModel Fp Curve GroupSpec GroupProofs ScalarMul ScalarSpec SlideExact TextModel TextSpec PropTextLemmas
  BasePoint PropGroupLemmas RecoverModel RecoverSpec PropRecoverLemmas RaceModel RaceSpec RaceProofs.
Import ListNotations.
Open Scope Z_scope.

Lemma run_app c s h1 h2 : m_run c s (h1 ++ h2) = m_run c (m_run c s h1) h2.
Proof. unfold m_run. apply fold_left_app. Qed.
Lemma race_app c h1 h2 : race c (h1 ++ h2) = m_run c (race c h1) h2.
Proof. unfold race. apply run_app. Qed.
Lemma nth_seq a n k : (k < n)%nat -> nth_error (seq a n) k = Some (a + k)%nat.
Proof.
  revert a k. induction n as [|n IH]; intros a [|k] H; try lia; cbn [seq nth_error]; [f_equal; lia|]. rewrite IH by lia. f_equal. lia.
Qed.
Lemma pair_l {A B} (a a' : A) (b b' : B) : (a, b) = (a', b') -> a' = a.
Proof. congruence. Qed.
Lemma pair_r {A B} (a a' : A) (b b' : B) : (a, b) = (a', b') -> b' = b.
Proof. congruence. Qed.
Lemma some_inj {A} (a b : A) : Some a = Some b -> a = b.
Proof. congruence. Qed.
Lemma nth_map_seq {A} (f : nat -> A) n i y : nth_error (map f (seq 0 n)) i = Some y -> (i < n)%nat /\ y = f i.
Proof.
  intros H. assert (L : (i < n)%nat).
  { assert (Y : nth_error (map f (seq 0 n)) i <> None) by congruence. apply nth_error_Some in Y. now rewrite map_length, seq_length in Y. }
  split; [exact L|]. rewrite nth_error_map, nth_seq in H by exact L. cbn [option_map] in H. change (0 + i)%nat with i in H. congruence.
Qed.

Section Race.
Variable c : gcore.
Variable P : point.
Hypothesis Hc : repc P3 c P.

Lemma code_fin g o : valid g -> code c g = Fin o -> g = E o.
Proof.
  destruct g as [| |q| | |i|t i|i|t i|i j|t i j|r i j| | |q| |j|t j|o']; cbn [valid]; intros V H; try discriminate H.
  - destruct q; discriminate H.
  - cbn [code] in H. rewrite rows_S in H by exact V. discriminate H.
  - cbn [code] in H. rewrite cols_S in H by exact (proj2 V). discriminate H.
  - destruct q; discriminate H.
  - cbn [code] in H. rewrite dcols_S in H by exact V. discriminate H.
  - cbn [code] in H. congruence.
Qed.
Lemma entries h : no_wrong_entry (seen c (memory (race c h))) P.
Proof.
  destruct (inv_race c P Hc h) as (kind & gs & [Hs Hd Hr It Ir Id Ie Ide In Idn]). set (s := race c h) in *. split.
  - intros rows i row j e. unfold seen. cbn [r_single]. destruct (m_single (memory s)) as [t|]; [|discriminate]. cbn [option_map].
    intros X. apply some_inj in X. subst rows. intros Hi Hj.
    apply nth_map_seq in Hi as [Li ->].
    destruct (tab (memory s) t i) as [r|] eqn:Et; [|destruct j; discriminate Hj].
    apply nth_map_seq in Hj as [Lj Hj]. symmetry in Hj.
    destruct (It _ _ _ Et) as [L <-]. now apply Ir.
  - intros l j e. unfold seen. cbn [r_double]. destruct (m_double (memory s)) as [t|]; [|discriminate]. cbn [option_map].
    intros X. apply some_inj in X. subst l. intros Hj.
    apply nth_map_seq in Hj as [Lj Hj]. symmetry in Hj. now apply Id with t.
Qed.
Lemma selected h n pos b o : ended (race c h) n (CSelect pos b) o -> exists x, o = Result x /\
  (x = RPanic \/ x = RNil \/ exists r, x = ROk r /\ (repc PRECOMPUTED r (zmul (digit b * 256 ^ pos) P) \/ repc PRECOMPUTED r pzero)).
Proof.
  intros H. destruct (inv_race c P Hc h) as (kind & gs & [Hs Hd Hr It Ir Id Ie Ide In Idn]).
  destruct (Hr n (CSelect pos b) (Fin o) ltac:(discriminate) ltac:(discriminate) H) as [_ G]. specialize (G pos b eq_refl).
  destruct G as [G|[[_ [t G]]|[(_ & r & j & t0 & G & L & _)|(x & G & Gx)]]].
  - discriminate G.
  - discriminate G.
  - replace (8 - j)%nat with (S (7 - j)) in G by lia. discriminate G.
  - injection G as ->. exists x. split; [reflexivity|exact Gx].
Qed.
Lemma stage_ends s kind gs n a : Inv c P s kind gs -> nth_error (threads s) n = Some (CSingle, a) \/ nth_error (threads s) n = Some (CDouble, a) ->
  (exists o, a = Fin o) -> exists o, gs n = E o /\ a = Fin o.
Proof.
  intros HI H [o Ho]. destruct HI as [Hs Hd _ _ _ _ _ _ _ _]. exists o. subst a. split; [|reflexivity].
  destruct H as [H|H]; [destruct (Hs _ _ H) as (X & V & _)|destruct (Hd _ _ H) as (X & V & _)]; apply code_fin; auto.
Qed.
Lemma single_done h : none_running (race c h) CSingle ->
  (exists n, ended (race c h) n CSingle Returned) \/ r_single (seen c (memory (race c h))) <> None -> full_single (seen c (memory (race c h))) P.
Proof.
  intros NR H. destruct (inv_race c P Hc h) as (kind & gs & HI). pose proof HI as [Hs Hd Hr It Ir Id Ie Ide In Idn]. set (s := race c h) in *.
  assert (F : m_single (memory s) <> None).
  { destruct H as [[n Hn]|H]; [|intros X; apply H; unfold seen; cbn [r_single]; now rewrite X].
    intros X. pose proof (Ie X n (ex_intro _ (Fin Returned) Hn)) as Ey. destruct (Hs _ _ Hn) as (Y & V & _). rewrite (code_fin _ _ V (eq_sym Y)) in Ey. exact Ey. }
  destruct (m_single (memory s)) as [t|] eqn:Et; [|congruence]. clear F H.
  assert (NE : forall n, iS s n -> exists o, gs n = E o).
  { intros n [a Ha]. destruct (stage_ends s kind gs n a HI (or_introl Ha) (NR _ _ Ha)) as (o & Ho & _). eauto. }
  assert (A : forall i, (i < 32)%nat -> exists r, tab (memory s) t i = Some r /\ forall j, (j < 8)%nat -> row (memory s) r j <> None).
  { intros i Hi. specialize (In t eq_refl i Hi). unfold cov in In. destruct (tab (memory s) t i) as [r|].
    - exists r. split; [reflexivity|]. destruct In as (J & L & F & [->|(n & Ik & W)]); [exact F|].
      destruct (NE n Ik) as [o Eo]. rewrite Eo in W. destruct W.
    - destruct In as (n & Ik & W). destruct (NE n Ik) as [o Eo]. rewrite Eo in W. destruct W. }
  exists (map (fun i => match tab (memory s) t i with None => [] | Some r => map (fun j => match row (memory s) r j with Some e => e | None => c end) (seq 0 8) end) (seq 0 32)).
  split.
  - unfold seen. cbn [r_single]. rewrite Et. cbn [option_map]. apply f_equal. rewrite map_map. apply map_ext_in. intros i Hi. apply in_seq in Hi.
    destruct (A i ltac:(lia)) as (r & -> & F). rewrite map_map. apply map_ext_in. intros j Hj. apply in_seq in Hj.
    specialize (F j ltac:(lia)). destruct (row (memory s) r j); [reflexivity|congruence].
  - split; [now rewrite map_length, seq_length|]. intros i rw Hi.
    apply nth_map_seq in Hi as [Li ->].
    destruct (A i Li) as (r & Er & F). rewrite Er. split; [now rewrite map_length, seq_length|]. intros j e Hj.
    apply nth_map_seq in Hj as [Lj Hj]. symmetry in Hj.
    specialize (F j Lj). destruct (row (memory s) r j) as [e'|] eqn:Ee; [|congruence]. subst e'. destruct (It _ _ _ Er) as [L <-]. now apply Ir.
Qed.
Lemma double_done h : none_running (race c h) CDouble -> (forall n, ~ ended (race c h) n CDouble Panicked) ->
  (exists n, ended (race c h) n CDouble Returned) \/ r_double (seen c (memory (race c h))) <> None -> full_double (seen c (memory (race c h))) P.
Proof.
  intros NR NP H. destruct (inv_race c P Hc h) as (kind & gs & HI). pose proof HI as [Hs Hd Hr It Ir Id Ie Ide In Idn]. set (s := race c h) in *.
  assert (F : m_double (memory s) <> None).
  { destruct H as [[n Hn]|H]; [|intros X; apply H; unfold seen; cbn [r_double]; now rewrite X].
    intros X. pose proof (Ide X n (ex_intro _ (Fin Returned) Hn)) as Ey. destruct (Hd _ _ Hn) as (Y & V & _). rewrite (code_fin _ _ V (eq_sym Y)) in Ey. exact Ey. }
  destruct (m_double (memory s)) as [t|] eqn:Et; [|congruence]. clear F H.
  assert (NE : forall n, iD s n -> exists o, gs n = E o /\ ended s n CDouble o).
  { intros n [a Ha]. destruct (stage_ends s kind gs n a HI (or_intror Ha) (NR _ _ Ha)) as (o & Ho & ->). exists o. split; [exact Ho|exact Ha]. }
  assert (A : forall j, (j < 8)%nat -> dtab (memory s) t j <> None).
  { destruct (Idn ltac:(intros n Ik X; destruct (NE n Ik) as (o & E1 & E2); rewrite E1 in X; injection X as ->; exact (NP _ E2)) t eq_refl) as (J & L & F & [->|(n & Ik & W)]); [exact F|].
    destruct (NE n Ik) as (o & Eo & _). rewrite Eo in W. destruct W. }
  exists (map (fun j => match dtab (memory s) t j with Some e => e | None => c end) (seq 0 8)). split.
  - unfold seen. cbn [r_double]. rewrite Et. cbn [option_map]. apply f_equal. rewrite map_map. apply map_ext_in. intros j Hj. apply in_seq in Hj.
    specialize (A j ltac:(lia)). destruct (dtab (memory s) t j); [reflexivity|congruence].
  - split; [now rewrite map_length, seq_length|]. intros j e Hj.
    apply nth_map_seq in Hj as [Lj Hj]. symmetry in Hj.
    specialize (A j Lj). destruct (dtab (memory s) t j) as [e'|] eqn:Ee; [|congruence]. subst e'. now apply Id with t.
Qed.

(** ** A call that reads while nobody stores *)
Fixpoint solo (m : mem) (a : act) : outcome :=
  match a with
  | Fin o => o
  | LoadS k => solo m (k (m_single m))
  | LoadR t i k => solo m (k (tab m t i))
  | LoadE r j k => solo m (k (row m r j))
  | _ => Panicked
  end.
Fixpoint sreader (a : act) : Prop :=
  match a with
  | Fin _ => True
  | LoadS k | LoadR _ _ k => forall f, sreader (k f)
  | LoadE _ _ k => forall f, sreader (k f)
  | _ => False
  end.
Lemma sloop_sreader bAbs k : (forall x, sreader (k x)) -> forall n j r t, sreader (p_select_loop n j r bAbs t k).
Proof.
  intros Hk. induction n as [|n IH]; intros j r t; cbn [p_select_loop]; [apply Hk|]. cbn [sreader]. intros el.
  destruct (r_cmov _ _ _); auto.
Qed.
Lemma select_sreader pos b k : (forall x, sreader (k x)) -> sreader (p_select pos b k).
Proof.
  intros Hk. unfold p_select. cbn [sreader]. intros [t|]; [|apply Hk]. destruct ((pos <? 0) || (32 <=? pos)); [apply Hk|].
  cbn [sreader]. intros [r|]; [|apply Hk]. apply sloop_sreader. intros x. apply Hk.
Qed.
Lemma sm_sreader e k : (forall x, sreader (k x)) -> forall is h, sreader (p_sm_loop e is h k).
Proof.
  intros Hk. induction is as [|i is IH]; intros h; cbn [p_sm_loop]; [apply Hk|]. apply select_sreader. intros x.
  destruct (rbind x _); auto.
Qed.
Lemma solo_loop m bAbs k r : forall n j t, solo m (p_select_loop n j r bAbs t k) =
  solo m (k (r_select_loop bAbs (Z.of_nat j) (map (row m r) (seq j n)) t)).
Proof.
  induction n as [|n IH]; intros j t; cbn [p_select_loop seq map r_select_loop]; [reflexivity|]. cbn [solo].
  destruct (r_cmov t (row m r j) (byte_eq_int bAbs (Z.of_nat j + 1))); cbn [rbind]; try reflexivity.
  rewrite IH. now rewrite Nat2Z.inj_succ.
Qed.
Lemma solo_select m pos b k : solo m (p_select pos b k) = solo m (k (r_select (seen c m) pos b)).
Proof.
  unfold p_select, r_select. cbn [solo seen r_single]. destruct (m_single m) as [t|]; cbn [option_map]; [|now destruct (pos <? 0)].
  destruct (Z.ltb_spec pos 0) as [N|N]; cbn [orb]; [reflexivity|].
  destruct (Z.leb_spec 32 pos) as [L|L].
  - rewrite (proj2 (nth_error_None _ _)); [reflexivity|]. rewrite map_length, seq_length. lia.
  - rewrite nth_error_map, nth_seq by lia. cbn [option_map]. change (0 + Z.to_nat pos)%nat with (Z.to_nat pos). cbn [solo].
    destruct (tab m t (Z.to_nat pos)) as [r|].
    + exact (solo_loop m _ (fun x => k (rbind x _)) r 8 0 zero_precomputed).
    + reflexivity.
Qed.
Lemma solo_sm m e k : forall is h, solo m (p_sm_loop e is h k) = solo m (k (r_sm_loop (seen c m) e is h)).
Proof.
  induction is as [|i is IH]; intros h; cbn [p_sm_loop r_sm_loop]; [reflexivity|]. rewrite solo_select. unfold r_sm_step.
  destruct (r_select (seen c m) (Z.of_nat (i / 2)) (nth i e 0)) as [x| | |]; cbn [rbind]; try reflexivity.
  destruct (of_plain (do t <- g_precomputedAdd h x; to_P3 t)); cbn [rbind]; try reflexivity. apply IH.
Qed.
Lemma solo_multiply m a : solo m (p_scalar_multiply a) = Result (r_scalar_multiply (seen c m) a).
Proof.
  unfold p_scalar_multiply, r_scalar_multiply. destruct (to_radix16 a) as [e| |]; [|reflexivity|reflexivity]. cbn [of_plain rbind].
  rewrite solo_sm. generalize (r_sm_loop (seen c m) e (map (fun k => (2 * k + 1)%nat) (seq 0 32)) zero_P3). intros x.
  destruct x as [h| | |]; cbn [rbind]; try reflexivity.
  match goal with |- context [of_plain ?y] => generalize (of_plain y) end. intros x.
  destruct x as [h4| | |]; cbn [rbind]; try reflexivity. rewrite solo_sm. reflexivity.
Qed.
Lemma r_select_ext g g' pos b : r_single g = r_single g' -> r_select g pos b = r_select g' pos b.
Proof. intros H. unfold r_select. now rewrite H. Qed.
Lemma sm_same g e : forall is h, r_sm_loop (of_ge g) e is h = of_plain (sm_loop g e is h).
Proof.
  induction is as [|i is IH]; intros h; cbn [r_sm_loop sm_loop]; [reflexivity|]. unfold r_sm_step, sm_step.
  rewrite select_same, select_int_same. destruct (g_select g (i / 2) (nth i e 0)) as [x| |]; cbn [of_plain rbind bind]; try reflexivity.
  destruct (do t <- g_precomputedAdd h x; to_P3 t) as [y| |]; cbn [of_plain rbind bind]; try reflexivity. apply IH.
Qed.
Lemma sm_ext g g' e : r_single g = r_single g' -> forall is h, r_sm_loop g e is h = r_sm_loop g' e is h.
Proof.
  intros H. induction is as [|i is IH]; intros h; cbn [r_sm_loop]; [reflexivity|]. unfold r_sm_step. rewrite (r_select_ext g g') by exact H.
  destruct (rbind (r_select g' _ _) _); cbn [rbind]; auto.
Qed.
Lemma multiply_same g a : r_scalar_multiply (of_ge g) a = of_plain (g_scalarMultiply g a).
Proof.
  unfold r_scalar_multiply, g_scalarMultiply. destruct (to_radix16 a) as [e| |]; [|reflexivity|reflexivity]. cbn [of_plain rbind bind].
  rewrite sm_same. generalize (sm_loop g e (map (fun k => (2 * k + 1)%nat) (seq 0 32)) zero_P3). intros x.
  destruct x as [h| |]; cbn [of_plain rbind bind]; try reflexivity.
  assert (B : forall (x : res gcore), rbind (of_plain x) (fun h4 => r_sm_loop (of_ge g) e (map (fun k => (2 * k)%nat) (seq 0 32)) h4) =
    of_plain (do h4 <- x; sm_loop g e (map (fun k => (2 * k)%nat) (seq 0 32)) h4)).
  { intros [y| |]; cbn [of_plain rbind bind]; try reflexivity. apply sm_same. }
  rewrite B. clear B. generalize (sm_loop g e (map (fun k => (2 * k)%nat) (seq 0 32))). intros f.
  destruct (g_dbl h) as [d1| |]; cbn [bind]; try reflexivity. destruct (to_P2 d1) as [h1| |]; cbn [bind]; try reflexivity.
  destruct (g_dbl h1) as [d2| |]; cbn [bind]; try reflexivity. destruct (to_P2 d2) as [h2| |]; cbn [bind]; try reflexivity.
  destruct (g_dbl h2) as [d3| |]; cbn [bind]; try reflexivity. destruct (to_P2 d3) as [h3| |]; cbn [bind]; try reflexivity.
  destruct (g_dbl h3) as [d4| |]; cbn [bind]; try reflexivity.
Qed.
Lemma multiply_ext g g' a : r_single g = r_single g' -> r_scalar_multiply g a = r_scalar_multiply g' a.
Proof.
  intros H. unfold r_scalar_multiply. destruct (of_plain (to_radix16 a)) as [e| | |]; cbn [rbind]; try reflexivity.
  rewrite (sm_ext g g') by exact H. destruct (r_sm_loop g' e (map (fun k => (2 * k + 1)%nat) (seq 0 32)) zero_P3) as [h| | |]; cbn [rbind]; try reflexivity.
  match goal with |- context [of_plain ?y] => generalize (of_plain y) end. intros x. destruct x; cbn [rbind]; try reflexivity. now apply sm_ext.
Qed.
Lemma full_select g pos b : full_single g P -> 0 <= pos < 32 ->
  exists r, r_select g pos b = ROk r /\ repc PRECOMPUTED r (zmul (digit b * 256 ^ pos) P).
Proof.
  intros (rows & E1 & T) Hp. destruct (select_exact (Ge c (Some rows) None) rows P pos b eq_refl T Hp) as (r & Er & Hr).
  exists r. split; [|exact Hr]. rewrite (r_select_ext g (of_ge (Ge c (Some rows) None))) by exact E1. rewrite select_same, Er. reflexivity.
Qed.
Lemma full_multiply g a : full_single g P -> wf_bytes a -> (32 <= length a)%nat ->
  exists r, r_scalar_multiply g a = ROk r /\ repc P3 r (zmul (single_scalar (le_val (firstn 32 a))) P).
Proof.
  intros (rows & E1 & T) W L. destruct (scalar_mult_every (Ge c (Some rows) None) rows P a eq_refl T W L) as (r & Er & Hr).
  exists r. split; [|exact Hr]. rewrite (multiply_ext g (of_ge (Ge c (Some rows) None))) by exact E1. rewrite multiply_same, Er. reflexivity.
Qed.

(** ** Once a table is there and nobody is filling it *)
Record QS (s0 s : machine) : Prop := {
  q_field : m_single (memory s) = m_single (memory s0);
  q_tab : tab (memory s) = tab (memory s0);
  q_row : row (memory s) = row (memory s0);
  q_len : (length (threads s0) <= length (threads s))%nat;
  q_single : forall n a, nth_error (threads s) n = Some (CSingle, a) ->
    (a = p_single c /\ (length (threads s0) <= n)%nat) \/ exists o, a = Fin o /\ ((length (threads s0) <= n)%nat -> o = Returned);
  q_read : forall n x a, (length (threads s0) <= n)%nat -> (exists pos b, x = CSelect pos b) \/ (exists d, x = CMultiply d) ->
    nth_error (threads s) n = Some (x, a) -> sreader a /\ solo (memory s0) a = solo (memory s0) (program c x) }.
Lemma set_nth_length {A} (l : list A) : forall n a, length (set_nth l n a) = length l.
Proof. induction l as [|x l IH]; intros [|n] a; cbn [set_nth length]; auto. Qed.
Lemma program_sreader x : (exists pos b, x = CSelect pos b) \/ (exists d, x = CMultiply d) -> sreader (program c x).
Proof.
  intros [(pos & b & ->)|(d & ->)]; cbn [program].
  - apply select_sreader. intros x. exact I.
  - unfold p_scalar_multiply. destruct (to_radix16 d) as [e| |]; try exact I. apply sm_sreader. intros x.
    destruct (rbind x _); try exact I. apply sm_sreader. intros y. exact I.
Qed.
Lemma sreader_step m0 m a : m_single m = m_single m0 -> tab m = tab m0 -> row m = row m0 -> sreader a ->
  exists a', act_step m a = (m, a') /\ sreader a' /\ solo m0 a' = solo m0 a.
Proof.
  intros E1 E2 E3. destruct a; cbn [sreader act_step solo]; intros H; try tauto; eexists; (split; [reflexivity|]); rewrite ?E1, ?E2, ?E3; auto.
Qed.
Lemma qs_step s0 s kind gs e : m_single (memory s0) <> None -> Inv c P s kind gs -> QS s0 s -> QS s0 (m_step c s e).
Proof.
  intros F HI [Q1 Q2 Q3 Q4 Q5 Q6]. destruct e as [x|n]; cbn [m_step].
  - constructor; cbn [memory threads]; try assumption.
    + rewrite app_length. lia.
    + intros n a H. destruct (nth_snoc _ _ _ _ H) as [[H' N]|[-> Y]]; [now apply Q5|]. injection Y as <- ->. left. split; [reflexivity|exact Q4].
    + intros n y a L Y H. destruct (nth_snoc _ _ _ _ H) as [[H' N]|[-> Z]]; [now apply (Q6 n)|]. injection Z as -> ->.
      split; [now apply program_sreader|reflexivity].
  - destruct (nth_error (threads s) n) as [[x a]|] eqn:En; [|constructor; assumption].
    destruct (act_step (memory s) a) as [m' a'] eqn:Ea.
    assert (K : m_single m' = m_single (memory s) /\ tab m' = tab (memory s) /\ row m' = row (memory s)).
    { pose proof HI as [Hs Hd Hr _ _ _ _ _ _ _]. destruct x as [| | |pos b|d].
      - destruct (Q5 _ _ En) as [[-> _]|(o & -> & _)].
        + unfold p_single in Ea. cbn [act_step] in Ea. apply pair_l in Ea. subst m'. auto.
        + cbn [act_step] in Ea. apply pair_l in Ea. subst m'. auto.
      - destruct (Hd _ _ En) as (-> & V & D). rewrite (sim c P Hc _ _ V) in Ea. apply pair_l in Ea. subst m'.
        destruct (gs n); cbn [double_st] in D; try tauto; auto.
      - destruct (Hr n CIsDouble a ltac:(discriminate) ltac:(discriminate) En) as [R _]. destruct (reader_step (memory s) a R) as (a1 & E1 & _).
        rewrite E1 in Ea. apply pair_l in Ea. subst m'. auto.
      - destruct (Hr n (CSelect pos b) a ltac:(discriminate) ltac:(discriminate) En) as [R _]. destruct (reader_step (memory s) a R) as (a1 & E1 & _).
        rewrite E1 in Ea. apply pair_l in Ea. subst m'. auto.
      - destruct (Hr n (CMultiply d) a ltac:(discriminate) ltac:(discriminate) En) as [R _]. destruct (reader_step (memory s) a R) as (a1 & E1 & _).
        rewrite E1 in Ea. apply pair_l in Ea. subst m'. auto. }
    destruct K as (K1 & K2 & K3).
    constructor; cbn [memory threads]; try congruence.
    + now rewrite set_nth_length.
    + intros k b H. rewrite (nth_set_nth _ _ _ _ _ En) in H. destruct (Nat.eqb_spec k n) as [->|N]; [|now apply Q5].
      injection H as -> <-. right. destruct (Q5 _ _ En) as [[-> L]|(o & -> & Ho)].
      * unfold p_single in Ea. cbn [act_step] in Ea. rewrite Q1 in Ea. destruct (m_single (memory s0)); [|congruence]. apply pair_r in Ea. subst a'. exists Returned. auto.
      * cbn [act_step] in Ea. apply pair_r in Ea. subst a'. exists o. auto.
    + intros k y b L Y H. rewrite (nth_set_nth _ _ _ _ _ En) in H. destruct (Nat.eqb_spec k n) as [->|N]; [|now apply (Q6 k)].
      injection H as -> <-. destruct (Q6 n y a L Y En) as [R1 R2]. destruct (sreader_step (memory s0) (memory s) a Q1 Q2 Q3 R1) as (a1 & E1 & R3 & R4).
      rewrite E1 in Ea. apply pair_r in Ea. subst a'. split; [exact R3|congruence].
Qed.
Lemma qs_run h : forall s0 s kind gs, m_single (memory s0) <> None -> Inv c P s kind gs -> QS s0 s -> QS s0 (m_run c s h).
Proof.
  induction h as [|e h IH]; intros s0 s kind gs F HI Q; [exact Q|]. destruct (inv_step c P Hc s kind gs e HI) as (k' & g' & HI').
  exact (IH _ _ _ _ F HI' (qs_step _ _ _ _ e F HI Q)).
Qed.
Lemma seen_single m m' : m_single m = m_single m' -> tab m = tab m' -> row m = row m' -> r_single (seen c m) = r_single (seen c m').
Proof. intros H1 H2 H3. unfold seen. cbn [r_single]. now rewrite H1, H2, H3. Qed.
Lemma single_stays h h' : none_running (race c h) CSingle -> full_single (seen c (memory (race c h))) P ->
  r_single (seen c (memory (race c (h ++ h')))) = r_single (seen c (memory (race c h))) /\
  forall n x o, (length (threads (race c h)) <= n)%nat -> ended (race c (h ++ h')) n x o ->
    (x = CSingle -> o = Returned) /\
    (forall pos b, x = CSelect pos b -> 0 <= pos < 32 -> exists r, o = Result (ROk r) /\ repc PRECOMPUTED r (zmul (digit b * 256 ^ pos) P)) /\
    (forall a, x = CMultiply a -> wf_bytes a -> (32 <= length a)%nat ->
       exists r, o = Result (ROk r) /\ repc P3 r (zmul (single_scalar (le_val (firstn 32 a))) P)).
Proof.
  intros NR F. rewrite race_app. destruct (inv_race c P Hc h) as (kind & gs & HI). set (s := race c h) in *. clearbody s.
  assert (F0 : m_single (memory s) <> None). { destruct F as (rows & E1 & _). intros X. unfold seen in E1. cbn [r_single] in E1. rewrite X in E1. discriminate E1. }
  assert (Q : QS s s).
  { constructor; try reflexivity; try lia.
    - intros n a H. right. destruct (NR _ _ H) as [o ->]. exists o. split; [reflexivity|]. intros L.
      rewrite (proj2 (nth_error_None (threads s) n) L) in H. discriminate H.
    - intros n x a L _ H. rewrite (proj2 (nth_error_None (threads s) n) L) in H. discriminate H. }
  pose proof (qs_run h' s s kind gs F0 HI Q) as [Q1 Q2 Q3 Q4 Q5 Q6]. set (s' := m_run c s h') in *. clearbody s'.
  split; [now apply seen_single|]. intros n x o L H. unfold ended in H. split; [|split].
  - intros ->. destruct (Q5 _ _ H) as [[X _]|(o' & X & Y)]; [discriminate X|]. injection X as <-. now apply Y.
  - intros pos b -> Hp. destruct (Q6 n _ _ L ltac:(left; eauto) H) as [_ X]. cbn [solo program] in X.
    rewrite solo_select in X. cbn [solo] in X. destruct (full_select _ pos b F Hp) as (r & Er & Hr). rewrite Er in X. exists r. auto.
  - intros a -> W La. destruct (Q6 n _ _ L ltac:(right; eauto) H) as [_ X]. cbn [solo program] in X.
    rewrite solo_multiply in X. destruct (full_multiply _ a F W La) as (r & Er & Hr). rewrite Er in X. exists r. auto.
Qed.
Record QD (s0 s : machine) : Prop := {
  qd_field : m_double (memory s) = m_double (memory s0);
  qd_tab : dtab (memory s) = dtab (memory s0);
  qd_len : (length (threads s0) <= length (threads s))%nat;
  qd_double : forall n a, nth_error (threads s) n = Some (CDouble, a) ->
    (a = p_double c /\ (length (threads s0) <= n)%nat) \/ exists o, a = Fin o /\ ((length (threads s0) <= n)%nat -> o = Returned);
  qd_is : forall n a, (length (threads s0) <= n)%nat -> nth_error (threads s) n = Some (CIsDouble, a) ->
    a = p_is_double \/ a = Fin (Answer true) }.
Lemma qd_step s0 s kind gs e : m_double (memory s0) <> None -> Inv c P s kind gs -> QD s0 s -> QD s0 (m_step c s e).
Proof.
  intros F HI [Q1 Q2 Q4 Q5 Q6]. destruct e as [x|n]; cbn [m_step].
  - constructor; cbn [memory threads]; try assumption.
    + rewrite app_length. lia.
    + intros n a H. destruct (nth_snoc _ _ _ _ H) as [[H' N]|[-> Y]]; [now apply Q5|]. injection Y as <- ->. left. split; [reflexivity|exact Q4].
    + intros n a L H. destruct (nth_snoc _ _ _ _ H) as [[H' N]|[-> Z]]; [now apply (Q6 n)|]. injection Z as <- ->. left. reflexivity.
  - destruct (nth_error (threads s) n) as [[x a]|] eqn:En; [|constructor; assumption].
    destruct (act_step (memory s) a) as [m' a'] eqn:Ea.
    assert (K : m_double m' = m_double (memory s) /\ dtab m' = dtab (memory s)).
    { pose proof HI as [Hs Hd Hr _ _ _ _ _ _ _]. destruct x as [| | |pos b|d].
      - destruct (Hs _ _ En) as (-> & V & D & _). rewrite (sim c P Hc _ _ V) in Ea. apply pair_l in Ea. subst m'.
        destruct (gs n); cbn [single_st] in D; try tauto; auto.
      - destruct (Q5 _ _ En) as [[-> _]|(o & -> & _)].
        + unfold p_double in Ea. cbn [act_step] in Ea. apply pair_l in Ea. subst m'. auto.
        + cbn [act_step] in Ea. apply pair_l in Ea. subst m'. auto.
      - destruct (Hr n CIsDouble a ltac:(discriminate) ltac:(discriminate) En) as [R _]. destruct (reader_step (memory s) a R) as (a1 & E1 & _).
        rewrite E1 in Ea. apply pair_l in Ea. subst m'. auto.
      - destruct (Hr n (CSelect pos b) a ltac:(discriminate) ltac:(discriminate) En) as [R _]. destruct (reader_step (memory s) a R) as (a1 & E1 & _).
        rewrite E1 in Ea. apply pair_l in Ea. subst m'. auto.
      - destruct (Hr n (CMultiply d) a ltac:(discriminate) ltac:(discriminate) En) as [R _]. destruct (reader_step (memory s) a R) as (a1 & E1 & _).
        rewrite E1 in Ea. apply pair_l in Ea. subst m'. auto. }
    destruct K as (K1 & K2).
    constructor; cbn [memory threads]; try congruence.
    + now rewrite set_nth_length.
    + intros k b H. rewrite (nth_set_nth _ _ _ _ _ En) in H. destruct (Nat.eqb_spec k n) as [->|N]; [|now apply Q5].
      injection H as -> <-. right. destruct (Q5 _ _ En) as [[-> L]|(o & -> & Ho)].
      * unfold p_double in Ea. cbn [act_step] in Ea. rewrite Q1 in Ea. destruct (m_double (memory s0)); [|congruence]. apply pair_r in Ea. subst a'. exists Returned. auto.
      * cbn [act_step] in Ea. apply pair_r in Ea. subst a'. exists o. auto.
    + intros k b L H. rewrite (nth_set_nth _ _ _ _ _ En) in H. destruct (Nat.eqb_spec k n) as [->|N]; [|now apply (Q6 k)].
      injection H as -> <-. right. destruct (Q6 n a L En) as [-> | ->].
      * unfold p_is_double in Ea. cbn [act_step] in Ea. rewrite Q1 in Ea. destruct (m_double (memory s0)); [|congruence]. apply pair_r in Ea. subst a'. reflexivity.
      * cbn [act_step] in Ea. apply pair_r in Ea. subst a'. reflexivity.
Qed.
Lemma qd_run h : forall s0 s kind gs, m_double (memory s0) <> None -> Inv c P s kind gs -> QD s0 s -> QD s0 (m_run c s h).
Proof.
  induction h as [|e h IH]; intros s0 s kind gs F HI Q; [exact Q|]. destruct (inv_step c P Hc s kind gs e HI) as (k' & g' & HI').
  exact (IH _ _ _ _ F HI' (qd_step _ _ _ _ e F HI Q)).
Qed.
Lemma double_stays h h' : none_running (race c h) CDouble -> r_double (seen c (memory (race c h))) <> None ->
  r_double (seen c (memory (race c (h ++ h')))) = r_double (seen c (memory (race c h))) /\
  forall n x o, (length (threads (race c h)) <= n)%nat -> ended (race c (h ++ h')) n x o ->
    (x = CDouble -> o = Returned) /\ (x = CIsDouble -> o = Answer true).
Proof.
  intros NR F. rewrite race_app. destruct (inv_race c P Hc h) as (kind & gs & HI). set (s := race c h) in *. clearbody s.
  assert (F0 : m_double (memory s) <> None). { intros X. apply F. unfold seen. cbn [r_double]. now rewrite X. }
  assert (Q : QD s s).
  { constructor; try reflexivity; try lia.
    - intros n a H. right. destruct (NR _ _ H) as [o ->]. exists o. split; [reflexivity|]. intros L.
      rewrite (proj2 (nth_error_None (threads s) n) L) in H. discriminate H.
    - intros n a L H. rewrite (proj2 (nth_error_None (threads s) n) L) in H. discriminate H. }
  pose proof (qd_run h' s s kind gs F0 HI Q) as [Q1 Q2 Q4 Q5 Q6]. set (s' := m_run c s h') in *. clearbody s'.
  split; [unfold seen; cbn [r_double]; now rewrite Q1, Q2|]. intros n x o L H. unfold ended in H. split.
  - intros ->. destruct (Q5 _ _ H) as [[X _]|(o' & X & Y)]; [discriminate X|]. injection X as <-. now apply Y.
  - intros ->. destruct (Q6 _ _ L H) as [X|X]; [discriminate X|]. injection X as <-. reflexivity.
Qed.

(** ** Histories in which nothing panics *)
Lemma iS_turn s n k : iS (m_step c s (Turn n)) k <-> iS s k.
Proof.
  cbn [m_step]. destruct (nth_error (threads s) n) as [[x a]|] eqn:En; [|reflexivity]. destruct (act_step (memory s) a) as [m' a'].
  unfold iS. cbn [threads]. split; intros [b H].
  - rewrite (nth_set_nth _ _ _ _ _ En) in H. destruct (Nat.eqb_spec k n) as [->|N]; [|eauto]. injection H as -> _. eauto.
  - rewrite (nth_set_nth _ _ _ _ _ En). destruct (Nat.eqb_spec k n) as [->|N]; [|eauto]. rewrite En in H. injection H as -> _. eauto.
Qed.
Lemma iD_turn s n k : iD (m_step c s (Turn n)) k <-> iD s k.
Proof.
  cbn [m_step]. destruct (nth_error (threads s) n) as [[x a]|] eqn:En; [|reflexivity]. destruct (act_step (memory s) a) as [m' a'].
  unfold iD. cbn [threads]. split; intros [b H].
  - rewrite (nth_set_nth _ _ _ _ _ En) in H. destruct (Nat.eqb_spec k n) as [->|N]; [|eauto]. injection H as -> _. eauto.
  - rewrite (nth_set_nth _ _ _ _ _ En). destruct (Nat.eqb_spec k n) as [->|N]; [|eauto]. rewrite En in H. injection H as -> _. eauto.
Qed.
Lemma iS_start s x k : iS (m_step c s (Start x)) k -> iS s k /\ (k < length (threads s))%nat \/ k = length (threads s) /\ x = CSingle.
Proof.
  intros [a H]. cbn [m_step threads] in H. destruct (nth_snoc _ _ _ _ H) as [[H' N]|[-> Y]].
  - left. split; [exists a; exact H'|]. apply nth_error_Some. congruence.
  - right. split; [reflexivity|congruence].
Qed.
Lemma iD_start s x k : iD (m_step c s (Start x)) k -> iD s k /\ (k < length (threads s))%nat \/ k = length (threads s) /\ x = CDouble.
Proof.
  intros [a H]. cbn [m_step threads] in H. destruct (nth_snoc _ _ _ _ H) as [[H' N]|[-> Y]].
  - left. split; [exists a; exact H'|]. apply nth_error_Some. congruence.
  - right. split; [reflexivity|congruence].
Qed.
Lemma turn_mem s kind gs n : Inv c P s kind gs -> iS s n \/ iD s n -> memory (m_step c s (Turn n)) = mstep c (memory s) (gs n).
Proof.
  intros [Hs Hd _ _ _ _ _ _ _ _] H. cbn [m_step]. destruct H as [[a H]|[a H]]; rewrite H.
  - destruct (Hs _ _ H) as (-> & V & _). now rewrite (sim c P Hc _ _ V).
  - destruct (Hd _ _ H) as (-> & V & _). now rewrite (sim c P Hc _ _ V).
Qed.
Lemma turn_mem_other s kind gs n : Inv c P s kind gs -> ~ iS s n -> ~ iD s n -> memory (m_step c s (Turn n)) = memory s.
Proof.
  intros [_ _ Hr _ _ _ _ _ _ _] H1 H2. cbn [m_step]. destruct (nth_error (threads s) n) as [[x a]|] eqn:En; [|reflexivity].
  destruct (Hr n x a) as [R _]; [intros ->; apply H1; exists a; exact En|intros ->; apply H2; exists a; exact En|exact En|].
  destruct (reader_step (memory s) a R) as (a1 & -> & _). reflexivity.
Qed.
Lemma iS_dec s n : iS s n \/ ~ iS s n.
Proof. unfold iS. destruct (nth_error (threads s) n) as [[[] a]|]; try (left; eauto; fail); right; intros [z H]; congruence. Qed.
Lemma iD_dec s n : iD s n \/ ~ iD s n.
Proof. unfold iD. destruct (nth_error (threads s) n) as [[[] a]|]; try (left; eauto; fail); right; intros [z H]; congruence. Qed.
Lemma not_both s n : iS s n -> iD s n -> False.
Proof. intros [a H] [b H']. congruence. Qed.
Definition dsafe (g : st) : Prop := match g with Cd (Q2 _ d) | Cd (Q3 d) => d <> None | E o => o = Returned | _ => True end.
Lemma double_only h : forall s kind gs, Inv c P s kind gs -> m_single (memory s) = None -> (forall n, ~ iS s n) -> (forall n, iD s n -> dsafe (gs n)) ->
  ~ In CSingle (started h) -> exists kind' gs', Inv c P (m_run c s h) kind' gs' /\ forall n, iD (m_run c s h) n -> dsafe (gs' n).
Proof.
  induction h as [|e h IH]; intros s kind gs HI F NS D NI; [exists kind, gs; auto|].
  change (m_run c s (e :: h)) with (m_run c (m_step c s e) h). destruct e as [x|n].
  - assert (Nx : x <> CSingle) by (intros ->; apply NI; left; reflexivity).
    destruct (inv_start c P s kind gs x HI) as (gs' & HI' & G1 & G2). apply (IH _ kind gs' HI').
    + exact F.
    + intros k Hk. destruct (iS_start _ _ _ Hk) as [[X _]|[_ X]]; [exact (NS _ X)|exact (Nx X)].
    + intros k Hk. destruct (iD_start _ _ _ Hk) as [[X L]|[-> ->]]; [rewrite G1 by exact L; auto|]. rewrite G2. exact I.
    + intros X. apply NI. right. exact X.
  - destruct (inv_turn c P Hc s kind gs n HI) as (kind' & gs' & HI' & G1 & G2). apply (IH _ kind' gs' HI').
    + destruct (iD_dec s n) as [Y|Y].
      * rewrite (turn_mem s kind gs n HI (or_intror Y)). destruct Y as [a Y]. destruct (i_double c P _ _ _ HI _ _ Y) as (_ & _ & X).
        destruct (gs n); cbn [double_st] in X; try tauto; exact F.
      * rewrite (turn_mem_other s kind gs n HI (NS n) Y). exact F.
    + intros k Hk. apply (proj1 (iS_turn _ _ _)) in Hk. exact (NS _ Hk).
    + intros k Hk. apply (proj1 (iD_turn _ _ _)) in Hk. destruct (Nat.eq_dec k n) as [->|N]; [|rewrite G1 by exact N; auto].
      rewrite G2 by (right; exact Hk). specialize (D _ Hk). pose proof (i_dearly c P _ _ _ HI) as De.
      assert (M : dearly (gs n) \/ m_double (memory s) <> None).
      { destruct (m_double (memory s)) eqn:Em; [right; discriminate|]. left. now apply De. }
      destruct Hk as [a Hk]. destruct (i_double c P _ _ _ HI _ _ Hk) as (_ & V & X).
      destruct (gs n) as [| |q| | |i|t i|i|t i|i j|t i j|r i j| | |q| |j|t j|o]; cbn [double_st] in X; try (exfalso; exact X); cbn [sstep].
      * destruct (m_double (memory s)); [reflexivity|exact I].
      * exact I.
      * destruct M as [[]|M]. destruct q as [|u|u d|d]; cbn [q_step dsafe] in *; try exact I.
        -- exact M.
        -- rewrite F. destruct u; exact D.
        -- destruct d; [exact I|congruence].
      * destruct (m_double (memory s)); [exact I|reflexivity].
      * destruct M as [[]|M]. destruct (m_double (memory s)); [exact I|congruence].
      * destruct (Nat.ltb (S j) 8); [exact I|reflexivity].
      * exact D.
    + exact NI.
Qed.
Lemma double_alone h : ~ In CSingle (started h) -> forall n o, ended (race c h) n CDouble o -> o = Returned.
Proof.
  intros NI n o H. destruct (double_only h _ _ _ (inv_blank c P) eq_refl) as (kind & gs & HI & D); [intros k [a X]; destruct k; discriminate X|intros k [a X]; destruct k; discriminate X|exact NI|].
  change (m_run c (Machine blank []) h) with (race c h) in *. specialize (D n (ex_intro _ (Fin o) H)).
  destruct (i_double c P _ _ _ HI _ _ H) as (X & V & _). rewrite (code_fin _ _ V (eq_sym X)) in D. exact D.
Qed.
Definition ssafe (m : mem) (g : st) : Prop :=
  match g with
  | A0 | A1 | Cp _ | An => m_single m = None
  | R0 | S1 _ => m_single m <> None
  | S2 t i => m_single m = Some t
  | S3 i | S5 i _ | S7 _ i _ => exists t, m_single m = Some t /\ tab m t i <> None
  | S4 t i | S6 t i _ => m_single m = Some t /\ tab m t i <> None
  | E o => o = Returned /\ m_single m <> None
  | _ => False
  end.
Lemma ssafe_step m g : m_double m = None -> ssafe m g -> (forall q, g = Cp q -> match q with Q2 _ d | Q3 d => d = None | _ => True end) ->
  ssafe (mstep c m g) (sstep m g) /\ m_double (mstep c m g) = None /\ (forall q, sstep m g = Cp q -> match q with Q2 _ d | Q3 d => d = None | _ => True end).
Proof.
  intros D X Y. destruct g as [| |q| | |i|t i|i|t i|i j|t i j|r i j| | |q| |j|t j|o]; cbn [ssafe] in X; try tauto; cbn [mstep sstep].
  - rewrite X. repeat split; auto. discriminate.
  - rewrite X. split; [exact X|]. split; [exact D|]. intros q Q. injection Q as <-. exact I.
  - specialize (Y q eq_refl). destruct q as [|u|u d|d]; cbn [q_step].
    + split; [exact X|]. split; [exact D|]. intros q Q. injection Q as <-. exact I.
    + split; [exact X|]. split; [exact D|]. intros q Q. injection Q as <-. exact D.
    + rewrite X. destruct u; (split; [exact X|]; split; [exact D|]; intros q Q; injection Q as <-; exact Y).
    + rewrite D. destruct d; (split; [exact X|]; split; [reflexivity|]; discriminate).
  - split; [cbn [ssafe new_s m_single]; discriminate|]. split; [exact D|discriminate].
  - destruct (m_single m) as [t|] eqn:Em; [|congruence]. split; [cbn [ssafe]; congruence|]. split; [exact D|discriminate].
  - destruct (m_single m) as [t|] eqn:Em; [|congruence]. split; [exact Em|]. split; [exact D|discriminate].
  - split; [|split; [exact D|discriminate]]. exists t. split; [exact X|]. cbn [new_r tab]. rewrite !put_same. discriminate.
  - destruct X as (t & Em & T). rewrite Em. split; [split; assumption|]. split; [exact D|discriminate].
  - destruct X as (Em & T). destruct (tab m t i) eqn:Et; [|congruence]. split; [exists t; split; [exact Em|congruence]|]. split; [exact D|discriminate].
  - destruct X as (t & Em & T). rewrite Em. split; [split; assumption|]. split; [exact D|discriminate].
  - destruct X as (Em & T). destruct (tab m t i) eqn:Et; [|congruence]. split; [exists t; split; [exact Em|congruence]|]. split; [exact D|discriminate].
  - destruct X as (t & Em & T). unfold nxs. destruct (Nat.ltb (S j) 8); [|destruct (Nat.ltb (S i) 32)].
    + split; [exists t; auto|]. split; [exact D|discriminate].
    + split; [cbn [ssafe set_e m_single]; congruence|]. split; [exact D|discriminate].
    + split; [split; [reflexivity|cbn [set_e m_single]; congruence]|]. split; [exact D|discriminate].
  - split; [exact X|]. split; [exact D|discriminate].
Qed.
Definition lone (s : machine) (gs : nat -> st) : Prop :=
  m_double (memory s) = None /\ (forall n, ~ iD s n) /\
  (forall n, iS s n -> ssafe (memory s) (gs n) /\ (forall q, gs n = Cp q -> match q with Q2 _ d | Q3 d => d = None | _ => True end)).
Lemma single_only h : forall s kind gs, Inv c P s kind gs -> lone s gs ->
  ((forall n, ~ iS s n) /\ m_single (memory s) = None /\ (singles h <= 1)%nat) \/ ((exists n, forall k, iS s k <-> k = n) /\ singles h = 0%nat) ->
  ~ In CDouble (started h) -> exists kind' gs', Inv c P (m_run c s h) kind' gs' /\ lone (m_run c s h) gs'.
Proof.
  induction h as [|e h IH]; intros s kind gs HI L Hn NI; [exists kind, gs; auto|].
  change (m_run c s (e :: h)) with (m_run c (m_step c s e) h). destruct L as (F & ND & Sf). destruct e as [x|n].
  - assert (Nx : x <> CDouble) by (intros ->; apply NI; left; reflexivity).
    assert (NI' : ~ In CDouble (started h)) by (intros X; apply NI; right; exact X).
    destruct (inv_start c P s kind gs x HI) as (gs' & HI' & G1 & G2).
    assert (Sh : singles (Start x :: h) = match x with CSingle => S (singles h) | _ => singles h end) by (unfold singles; destruct x; reflexivity).
    apply (IH _ kind gs' HI'); [| |exact NI'].
    + split; [exact F|]. split; [intros k Hk; destruct (iD_start _ _ _ Hk) as [[X _]|[_ X]]; [exact (ND _ X)|exact (Nx X)]|].
      intros k Hk. destruct (iS_start _ _ _ Hk) as [[X Lk]|[-> ->]]; [rewrite G1 by exact Lk; now apply Sf|]. rewrite G2.
      split; [|discriminate]. destruct Hn as [(_ & Hn & _)|[_ Hn]]; [exact Hn|rewrite Sh in Hn; discriminate Hn].
    + destruct Hn as [(H0 & H1 & H2)|[(n & H0) H1]]; rewrite Sh in *.
      * destruct (match x with CSingle => true | _ => false end) eqn:Ex.
        -- right. destruct x; try discriminate Ex. split; [|lia]. exists (length (threads s)). intros k. split.
           ++ intros Hk. destruct (iS_start _ _ _ Hk) as [[X _]|[-> _]]; [destruct (H0 _ X)|reflexivity].
           ++ intros ->. exists (program c CSingle). cbn [m_step threads]. rewrite nth_error_app2, Nat.sub_diag by lia. reflexivity.
        -- left. split; [|split; [exact H1|destruct x; lia || discriminate Ex]].
           intros k Hk. destruct (iS_start _ _ _ Hk) as [[X _]|[_ ->]]; [exact (H0 _ X)|discriminate Ex].
      * right. split; [|destruct x; (discriminate H1 || exact H1)]. exists n. intros k. rewrite <- H0. split.
        -- intros Hk. destruct (iS_start _ _ _ Hk) as [[X _]|[_ ->]]; [exact X|discriminate H1].
        -- intros [a Hk]. exists a. cbn [m_step threads]. rewrite nth_error_app1; [exact Hk|]. apply nth_error_Some. congruence.
  - destruct (inv_turn c P Hc s kind gs n HI) as (kind' & gs' & HI' & G1 & G2). apply (IH _ kind' gs' HI'); [| |exact NI].
    + destruct (iS_dec s n) as [Y|Y].
      * destruct (Sf n Y) as [Y1 Y2]. destruct (ssafe_step _ _ F Y1 Y2) as (Z1 & Z2 & Z3).
        unfold lone. rewrite (turn_mem s kind gs n HI (or_introl Y)).
        split; [exact Z2|]. split; [intros k Hk; apply (proj1 (iD_turn _ _ _)) in Hk; exact (ND _ Hk)|].
        intros k Hk. apply (proj1 (iS_turn _ _ _)) in Hk. assert (k = n) as ->.
        { destruct Hn as [(H0 & _)|[(n0 & H0) _]]; [destruct (H0 _ Y)|]. apply H0 in Hk, Y. congruence. }
        rewrite G2 by (left; exact Y). auto.
      * unfold lone. rewrite (turn_mem_other s kind gs n HI Y (ND n)).
        split; [exact F|]. split; [intros k Hk; apply (proj1 (iD_turn _ _ _)) in Hk; exact (ND _ Hk)|].
        intros k Hk. apply (proj1 (iS_turn _ _ _)) in Hk. assert (k <> n) by (intros ->; exact (Y Hk)). rewrite G1 by assumption. auto.
    + destruct Hn as [(H0 & H1 & H2)|[(n0 & H0) H1]].
      * left. split; [intros k Hk; apply (proj1 (iS_turn _ _ _)) in Hk; exact (H0 _ Hk)|]. split; [|exact H2].
        rewrite (turn_mem_other s kind gs n HI (H0 n) (ND n)). exact H1.
      * right. split; [|exact H1]. exists n0. intros k. rewrite <- H0. apply iS_turn.
Qed.
Lemma single_alone h : (singles h <= 1)%nat -> ~ In CDouble (started h) -> forall n o, ended (race c h) n CSingle o -> o = Returned.
Proof.
  intros H1 H2 n o H. destruct (single_only h _ _ _ (inv_blank c P)) as (kind & gs & HI & L); [| |exact H2|].
  - split; [reflexivity|]. split; [intros k [a X]; destruct k; discriminate X|intros k [a X]; destruct k; discriminate X].
  - left. split; [intros k [a X]; destruct k; discriminate X|]. split; [reflexivity|exact H1].
  - change (m_run c (Machine blank []) h) with (race c h) in *. destruct L as (_ & _ & Sf). destruct (Sf n (ex_intro _ (Fin o) H)) as [X _].
    destruct (i_single c P _ _ _ HI _ _ H) as (Y & V & _). rewrite (code_fin _ _ V (eq_sym Y)) in X. exact (proj1 X).
Qed.
End Race.

(** ** Every call ends *)
Section Ends.
Variable c : gcore.
Fixpoint within (a : act) (N : nat) : Prop :=
  match a with
  | Fin _ => True
  | LoadS k | LoadD k | LoadR _ _ k => match N with O => False | S N' => forall f, within (k f) N' end
  | LoadE _ _ k => match N with O => False | S N' => forall f, within (k f) N' end
  | NewS k | NewD k | NewR _ _ k | StoreE _ _ _ k | StoreDE _ _ _ k => match N with O => False | S N' => within k N' end
  end.
Lemma within_mono a : forall N M, (N <= M)%nat -> within a N -> within a M.
Proof.
  induction a as [o|k IH|k IH|k IH|k IH|t i k IH|t i k IH|r j k IH|r j e k IH|t j e k IH]; intros N M L H; cbn [within] in *; try exact I;
    destruct N as [|N]; try contradiction; destruct M as [|M]; try lia.
  all: first [apply IH with N; [lia|exact H]|intros f; apply IH with N; [lia|apply H]].
Qed.
Lemma within_step m a N : within a N -> within (snd (act_step m a)) (N - 1).
Proof. destruct a; cbn [within act_step snd]; intros H; try exact I; destruct N as [|N]; try contradiction; replace (S N - 1)%nat with N by lia; auto. Qed.
Lemma within_fin a : within a 0 -> exists o, a = Fin o.
Proof. destruct a; cbn [within]; intros H; try contradiction. eauto. Qed.
Lemma w_copy k N : within k N -> within (p_copy k) (4 + N).
Proof.
  intros H. unfold p_copy. cbn [within Nat.add]. intros s d s'. destruct s, s'; try exact I; cbn [within]; intros d'; destruct d, d'; try exact I; exact H.
Qed.
Lemma w_cols m : forall i j Bi Bij next N, within next N -> within (p_cols m i j Bi Bij next) (3 * m + N).
Proof.
  induction m as [|m IH]; intros i j Bi Bij next N H; cbn [p_cols]; [exact H|].
  replace (3 * S m + N)%nat with (S (S (S (3 * m + N)))) by lia. cbn [within]. intros [t|]; [|exact I]. cbn [within]. intros [r|]; [|exact I].
  cbn [within]. destruct (add_P3 Bij Bi); try exact I. now apply IH.
Qed.
Lemma w_rows n : forall i Bi, within (p_rows n i Bi) (28 * n).
Proof.
  induction n as [|n IH]; intros i Bi; cbn [p_rows]; [exact I|].
  assert (Nx : within (match dbl_n 8 Bi with Ok Bi' => p_rows n (S i) Bi' | _ => Fin Panicked end) (28 * n)).
  { destruct (dbl_n 8 Bi); [apply IH|exact I|exact I]. }
  set (next := match dbl_n 8 Bi with Ok _ => _ | _ => _ end) in *. clearbody next.
  replace (28 * S n)%nat with (S (S (S (S (3 * 8 + 28 * n))))) by lia. generalize (w_cols 8 i 0 Bi Bi next _ Nx). generalize (p_cols 8 i 0 Bi Bi next).
  intros body Hb. remember (3 * 8 + 28 * n)%nat as K. cbn [within]. intros [t|]; [|exact I]. cbn [within]. intros [t'|]; [|exact I]. cbn [within]. intros [r|]; [exact Hb|].
  apply within_mono with (28 * n)%nat; [lia|exact Nx].
Qed.
Lemma w_single : within (p_single c) 1000.
Proof.
  apply within_mono with (2 + (4 + (2 + 28 * 32)))%nat; [vm_compute; lia|].
  assert (R : within (NewS (LoadS (fun f => match f with None => Fin Returned | Some _ => p_rows 32 0 c end))) (2 + 28 * 32)).
  { generalize (w_rows 32 0 c). generalize (p_rows 32 0 c) (28 * 32)%nat. intros a N H. cbn [within Nat.add]. intros [t|]; [exact H|exact I]. }
  apply w_copy in R. unfold p_single. revert R. generalize (p_copy (NewS (LoadS (fun f => match f with None => Fin Returned | Some _ => p_rows 32 0 c end)))).
  generalize (4 + (2 + 28 * 32))%nat. intros N a H. cbn [within Nat.add]. intros [t|]; [exact I|]. cbn [within]. intros [t|]; [exact I|exact H].
Qed.
Lemma w_dcols m : forall j Bi, within (p_dcols m j c Bi) (2 * m).
Proof.
  induction m as [|m IH]; intros j Bi; cbn [p_dcols]; [exact I|]. replace (2 * S m)%nat with (S (S (2 * m))) by lia. cbn [within].
  intros [t|]; [|exact I]. cbn [within]. destruct (do s <- add_P3 c Bi; add_P3 c s); [apply IH|exact I|exact I].
Qed.
Lemma w_double : within (p_double c) 1000.
Proof.
  apply within_mono with (2 + (4 + (1 + 2 * 8)))%nat; [lia|].
  assert (R : within (LoadD (fun f => match f with None => Fin Returned | Some _ => p_dcols 8 0 c c end)) (1 + 2 * 8)).
  { generalize (w_dcols 8 0 c). generalize (p_dcols 8 0 c c) (2 * 8)%nat. intros a N H. cbn [within Nat.add]. intros [t|]; [exact H|exact I]. }
  apply w_copy in R. unfold p_double. revert R. generalize (p_copy (LoadD (fun f => match f with None => Fin Returned | Some _ => p_dcols 8 0 c c end))).
  generalize (4 + (1 + 2 * 8))%nat. intros N a H. cbn [within Nat.add]. intros [t|]; [exact I|]. cbn [within]. exact H.
Qed.
Lemma w_sloop bAbs k N : (forall x, within (k x) N) -> forall n j r t, within (p_select_loop n j r bAbs t k) (n + N).
Proof.
  intros Hk. induction n as [|n IH]; intros j r t; cbn [p_select_loop Nat.add]; [apply Hk|]. cbn [within]. intros el.
  destruct (r_cmov t el _); try apply IH; apply within_mono with N; try lia; apply Hk.
Qed.
Lemma w_select pos b k N : (forall x, within (k x) N) -> within (p_select pos b k) (10 + N).
Proof.
  intros Hk. unfold p_select. assert (L : forall x, within (k x) (8 + N)) by (intros x; apply within_mono with N; [lia|apply Hk]).
  assert (L1 : forall x, within (k x) (9 + N)) by (intros x; apply within_mono with N; [lia|apply Hk]).
  cbv zeta. cbn [within]. change (10 + N)%nat with (S (9 + N)). cbv iota. intros [t|]; [|apply L1]. destruct ((pos <? 0) || (32 <=? pos)); [apply L1|].
  change (9 + N)%nat with (S (8 + N)). cbn [within]. intros [r|]; [|apply L]. apply w_sloop. intros x. apply Hk.
Qed.
Lemma w_sm e k N : (forall x, within (k x) N) -> forall is h, within (p_sm_loop e is h k) (10 * length is + N).
Proof.
  intros Hk. induction is as [|i is IH]; intros h; cbn [p_sm_loop length]; [apply Hk|].
  replace (10 * S (length is) + N)%nat with (10 + (10 * length is + N))%nat by lia. apply w_select. intros x.
  destruct (rbind x _); try apply IH; apply within_mono with N; try lia; apply Hk.
Qed.
Lemma w_program x : within (program c x) 1000.
Proof.
  destruct x as [| | |pos b|a]; cbn [program].
  - apply w_single.
  - apply w_double.
  - unfold p_is_double. apply within_mono with 1%nat; [lia|]. cbn [within]. intros f. exact I.
  - apply within_mono with (10 + 0)%nat; [lia|]. apply w_select. intros x. exact I.
  - unfold p_scalar_multiply. destruct (to_radix16 a) as [e| |]; try exact I.
    apply within_mono with (10 * length (map (fun k => (2 * k + 1)%nat) (seq 0 32)) + (10 * length (map (fun k => (2 * k)%nat) (seq 0 32)) + 0))%nat.
    { rewrite !map_length, !seq_length. lia. }
    apply w_sm. intros x. destruct (rbind x _); try exact I. apply w_sm. intros y. exact I.
Qed.
Lemma w_run h : forall s, (forall n x a, nth_error (threads s) n = Some (x, a) -> within a 1000) ->
  forall n x a, nth_error (threads (m_run c s h)) n = Some (x, a) -> within a 1000.
Proof.
  induction h as [|e h IH]; intros s H; [exact H|]. change (m_run c s (e :: h)) with (m_run c (m_step c s e) h). apply IH. clear IH.
  destruct e as [y|k]; cbn [m_step].
  - cbn [threads]. intros n x a Hn. destruct (nth_snoc _ _ _ _ Hn) as [[H' _]|[_ Y]]; [exact (H _ _ _ H')|]. injection Y as -> ->. apply w_program.
  - destruct (nth_error (threads s) k) as [[y b]|] eqn:Ek; [|exact H]. destruct (act_step (memory s) b) as [m' b'] eqn:Eb. cbn [threads].
    intros n x a Hn. rewrite (nth_set_nth _ _ _ _ _ Ek) in Hn. destruct (Nat.eqb n k); [|exact (H _ _ _ Hn)].
    injection Hn as -> ->. pose proof (within_step (memory s) b 1000 (H _ _ _ Ek)) as W. rewrite Eb in W. cbn [snd] in W.
    apply within_mono with (1000 - 1)%nat; [lia|exact W].
Qed.
Lemma ends_run h : forall s n x a N, nth_error (threads s) n = Some (x, a) -> within a N -> (N <= turns n h)%nat ->
  exists o, nth_error (threads (m_run c s h)) n = Some (x, Fin o).
Proof.
  induction h as [|e h IH]; intros s n x a N Hn W L.
  - cbn in L. assert (N = 0%nat) as -> by lia. destruct (within_fin a W) as [o ->]. exists o. exact Hn.
  - change (m_run c s (e :: h)) with (m_run c (m_step c s e) h). destruct e as [y|k].
    + apply (IH _ n x a N); [|exact W|exact L]. cbn [m_step threads]. rewrite nth_error_app1; [exact Hn|]. apply nth_error_Some. congruence.
    + unfold turns in L. cbn [filter] in L. destruct (Nat.eqb_spec k n) as [->|Nk].
      * cbn [length] in L. fold (turns n h) in L. cbn [m_step]. rewrite Hn. destruct (act_step (memory s) a) as [m' a'] eqn:Ea.
        apply (IH _ n x a' (N - 1)%nat); [|pose proof (within_step (memory s) a N W) as W'; rewrite Ea in W'; exact W'|lia].
        cbn [threads]. rewrite (nth_set_nth _ _ _ _ _ Hn), Nat.eqb_refl. reflexivity.
      * apply (IH _ n x a N); [|exact W|exact L]. cbn [m_step]. destruct (nth_error (threads s) k) as [[y b]|] eqn:Ek; [|exact Hn].
        destruct (act_step (memory s) b). cbn [threads]. rewrite (nth_set_nth _ _ _ _ _ Ek). rewrite (proj2 (Nat.eqb_neq n k)) by congruence. exact Hn.
Qed.
Lemma every_call_ends h h' n x a : nth_error (threads (race c h)) n = Some (x, a) -> (1000 <= turns n h')%nat ->
  exists o, ended (race c (h ++ h')) n x o.
Proof.
  intros Hn L. rewrite race_app. apply (ends_run h' _ n x a 1000%nat Hn); [|exact L].
  unfold race in Hn. apply (w_run h (Machine blank [])) in Hn; [exact Hn|]. intros k y b Hk. destruct k; discriminate Hk.
Qed.
End Ends.

(** ** Safe use *)
Section Safe.
Variable c : gcore.
Variable dbl : Prop.
Definition calm (x : call) (a : act) : Prop := reader a \/ (x = CSingle /\ a = p_single c) \/ (dbl /\ x = CDouble /\ a = p_double c).
Lemma calm_fin x o : calm x (Fin o).
Proof. left. exact I. Qed.
Lemma calm_step m x a : m_single m <> None -> (dbl -> m_double m <> None) -> calm x a -> exists a', act_step m a = (m, a') /\ calm x a'.
Proof.
  intros S D [H|[(-> & ->)|(K & -> & ->)]].
  - destruct (reader_step m a H) as (a' & E & H'). exists a'. split; [exact E|left; exact H'].
  - destruct (m_single m) as [t|] eqn:E; [|contradiction]. exists (Fin Returned). split; [|apply calm_fin]. unfold p_single. cbn [act_step]. rewrite E. reflexivity.
  - specialize (D K). destruct (m_double m) as [t|] eqn:E; [|contradiction]. exists (Fin Returned). split; [|apply calm_fin]. unfold p_double. cbn [act_step]. rewrite E. reflexivity.
Qed.
Lemma calm_run h' : forall s, m_single (memory s) <> None -> (dbl -> m_double (memory s) <> None) -> (~ dbl -> ~ In CDouble (started h')) -> (dbl \/ ~ dbl) ->
  (forall n x a, nth_error (threads s) n = Some (x, a) -> calm x a) ->
  forall n x a, nth_error (threads (m_run c s h')) n = Some (x, a) -> calm x a.
Proof.
  induction h' as [|e h' IH]; intros s S D N dec H; [exact H|]. change (m_run c s (e :: h')) with (m_run c (m_step c s e) h').
  assert (N' : ~ dbl -> ~ In CDouble (started h')).
  { intros K X. apply (N K). unfold started. cbn [flat_map]. apply in_or_app. right. exact X. }
  destruct e as [y|k]; cbn [m_step].
  - apply IH; [exact S|exact D|exact N'|exact dec|]. cbn [threads]. intros n x a Hn. destruct (nth_snoc _ _ _ _ Hn) as [[H' _]|[_ Y]]; [exact (H _ _ _ H')|].
    injection Y as -> ->. destruct y as [| |  |pos b|l].
    + right. left. split; reflexivity.
    + right. right. destruct dec as [K|K]; [split; [exact K|split; reflexivity]|]. elim (N K). left. reflexivity.
    + left. apply program_reader; discriminate.
    + left. apply program_reader; discriminate.
    + left. apply program_reader; discriminate.
  - destruct (nth_error (threads s) k) as [[y b]|] eqn:Ek; [|apply IH; assumption].
    destruct (calm_step (memory s) y b S D (H _ _ _ Ek)) as (b' & -> & Cb). apply IH; cbn [memory threads]; [exact S|exact D|exact N'|exact dec|].
    intros n x a Hn. rewrite (nth_set_nth _ _ _ _ _ Ek) in Hn. destruct (Nat.eqb n k); [|exact (H _ _ _ Hn)].
    injection Hn as -> ->. exact Cb.
Qed.
End Safe.
Lemma safe_use c P h : repc P3 c P -> none_running (race c h) CSingle -> none_running (race c h) CDouble ->
  r_single (seen c (memory (race c h))) <> None ->
  forall h', r_double (seen c (memory (race c h))) <> None \/ ~ In CDouble (started h') ->
  forall n, ~ about_to_store (race c (h ++ h')) n.
Proof.
  intros Hc N1 N2 S h' D n (x & a & Hn & K). rewrite race_app in Hn. set (dbl := r_double (seen c (memory (race c h))) <> None).
  assert (dec : dbl \/ ~ dbl).
  { unfold dbl. destruct (r_double (seen c (memory (race c h)))); [left; discriminate|right; intros X; apply X; reflexivity]. }
  destruct (inv_race c P Hc h) as (kind & gs & [Hs Hd Hr It Ir Id Ie Ide In0 Idn]).
  assert (C : calm c dbl x a).
  { apply (calm_run c dbl h' (race c h)) with n; [| | |exact dec| |exact Hn].
    - intros X. apply S. unfold seen. cbn [r_single]. rewrite X. reflexivity.
    - unfold dbl. intros X Y. apply X. unfold seen. cbn [r_double]. rewrite Y. reflexivity.
    - intros X. destruct D as [D|D]; [elim (X D)|exact D].
    - intros k y b Hk. destruct y as [| |  |pos q|l].
      + destruct (N1 _ _ Hk) as (o & ->). apply calm_fin.
      + destruct (N2 _ _ Hk) as (o & ->). apply calm_fin.
      + left. exact (proj1 (Hr k CIsDouble b ltac:(discriminate) ltac:(discriminate) Hk)).
      + left. exact (proj1 (Hr k (CSelect pos q) b ltac:(discriminate) ltac:(discriminate) Hk)).
      + left. exact (proj1 (Hr k (CMultiply l) b ltac:(discriminate) ltac:(discriminate) Hk)). }
  destruct C as [C|[(_ & ->)|(_ & _ & ->)]]; [|exact K|exact K]. destruct a; cbn [reader] in C; contradiction.
Qed.

(** ** What can go wrong *)
Definition h_panic : list event :=
  [Start CSingle; Start CSingle] ++ repeat (Turn 0) 6 ++ repeat (Turn 1) 6 ++ repeat (Turn 0) 6 ++ [Turn 1] ++ repeat (Turn 0) 2.
Lemma two_singles c : started h_panic = [CSingle; CSingle] /\ ended (race c h_panic) 0 CSingle Panicked.
Proof. split; reflexivity. Qed.
Definition h_lost : list event :=
  [Start CDouble] ++ repeat (Turn 0) 3 ++ [Start CSingle] ++ repeat (Turn 1) 7 ++ repeat (Turn 0) 2.
Lemma lost_state c : started h_lost = [CDouble; CSingle] /\ ended (race c h_lost) 0 CDouble Panicked /\ none_running (race c h_lost) CDouble /\
  r_double (seen c (memory (race c h_lost))) = Some (repeat None 8).
Proof.
  split; [reflexivity|]. split; [reflexivity|]. split; [|reflexivity].
  intros n a H. destruct n as [|[|n]].
  - exists Panicked. change (nth_error (threads (race c h_lost)) 0) with (Some (CDouble, Fin Panicked)) in H. congruence.
  - exfalso. assert (X : option_map fst (nth_error (threads (race c h_lost)) 1) = Some CSingle) by reflexivity. rewrite H in X. discriminate X.
  - exfalso. assert (L : length (threads (race c h_lost)) = 2%nat) by reflexivity.
    rewrite (proj2 (nth_error_None _ _)) in H by lia. discriminate H.
Qed.
Lemma double_lost c P : repc P3 c P -> exists h, started h = [CDouble; CSingle] /\ ended (race c h) 0 CDouble Panicked /\
  forall h', r_double (seen c (memory (race c (h ++ h')))) = Some (repeat None 8) /\
    forall n o, (2 <= n)%nat -> (ended (race c (h ++ h')) n CDouble o -> o = Returned) /\ (ended (race c (h ++ h')) n CIsDouble o -> o = Answer true).
Proof.
  intros Hc. destruct (lost_state c) as (L1 & L2 & L3 & L4). exists h_lost. split; [exact L1|]. split; [exact L2|]. intros h'.
  destruct (double_stays c P Hc h_lost h' L3) as [D1 D2]; [rewrite L4; discriminate|]. split; [rewrite D1; exact L4|].
  intros n o Ln. assert (L : length (threads (race c h_lost)) = 2%nat) by reflexivity. rewrite L in D2.
  split; intros H; [exact (proj1 (D2 _ _ _ Ln H) eq_refl)|exact (proj2 (D2 _ _ _ Ln H) eq_refl)].
Qed.
Definition h_before : list event := [Start CSingle] ++ repeat (Turn 0) 7 ++ [Start CSingle; Turn 1].
Definition sel_out : rres gcore := rbind (ROk zero_precomputed) (fun t => of_plain (g_cmov t (newPrecomputed (gY t) (gX t) (fe_neg (gZ t))) (is_negative_ct 1))).
Lemma sel_wrong c : ended (race c h_before) 1 CSingle Returned /\ length (threads (race c h_before)) = 2%nat /\
  ended (race c (h_before ++ [Start (CSelect 5 1); Turn 2; Turn 2])) 2 (CSelect 5 1) (Result sel_out).
Proof. split; [reflexivity|]. split; reflexivity. Qed.
Lemma wrong_after_return : ~ (forall c P h h' k n pos b r, repc P3 c P -> ended (race c h) k CSingle Returned -> 0 <= pos < 32 ->
  (length (threads (race c h)) <= n)%nat -> ended (race c (h ++ h')) n (CSelect pos b) (Result (ROk r)) ->
  repc PRECOMPUTED r (zmul (digit b * 256 ^ pos) P)).
Proof.
  intros K. destruct (every_point Bpt) as (_ & (c & Hc) & _). destruct (sel_wrong c) as (W1 & W2 & W3).
  assert (S : sel_out = ROk zero_precomputed) by reflexivity. rewrite S in W3.
  pose proof (K c Bpt h_before _ 1%nat 2%nat 5 1 _ Hc W1 ltac:(lia) ltac:(lia) W3) as R.
  assert (X : zmul (digit 1 * 256 ^ 5) Bpt = zmul 0 Bpt).
  { rewrite zmul_0. apply (rep_unique zero_precomputed); [discriminate|exact (proj2 R)|exact (proj2 zero_prec_rep)]. }
  apply zmul_B_inj in X. vm_compute in X. discriminate X.
Qed.

(** ** Examples *)
Lemma threads_repeat c x k : forall s, length (threads (m_run c s (repeat (Turn x) k))) = length (threads s).
Proof.
  induction k as [|k IH]; intros s; [reflexivity|]. cbn [repeat]. change (m_run c s (Turn x :: repeat (Turn x) k)) with (m_run c (m_step c s (Turn x)) (repeat (Turn x) k)).
  rewrite IH. cbn [m_step]. destruct (nth_error (threads s) x) as [[y b]|]; [|reflexivity]. destruct (act_step (memory s) b). cbn [threads].
  apply set_nth_length.
Qed.
Lemma turns_repeat n k : turns n (repeat (Turn n) k) = k.
Proof. unfold turns. induction k as [|k IH]; cbn [repeat filter]; [reflexivity|]. rewrite Nat.eqb_refl. cbn [length]. now rewrite IH. Qed.
Lemma started_turns n k : started (repeat (Turn n) k) = [].
Proof. unfold started. induction k as [|k IH]; cbn [repeat flat_map app]; [reflexivity|exact IH]. Qed.
Lemma started_app h h' : started (h ++ h') = started h ++ started h'.
Proof. apply flat_map_app. Qed.
Lemma ex_race : exists c h, repc P3 c Bpt /\ started h = [CSingle] /\ ended (race c h) 0 CSingle Returned /\ none_running (race c h) CSingle /\
  exists h', started h' = [CDouble] /\ ended (race c h') 0 CDouble Returned /\ none_running (race c h') CDouble.
Proof.
  destruct (every_point Bpt) as (_ & (c & Hc) & _). exists c, ([Start CSingle] ++ repeat (Turn 0) 1000). split; [exact Hc|].
  assert (S1 : forall x, started ([Start x] ++ repeat (Turn 0) 1000) = [x]) by (intros x; rewrite started_app, started_turns; reflexivity).
  assert (A : forall x, exists o, ended (race c ([Start x] ++ repeat (Turn 0) 1000)) 0 x o).
  { intros x. apply every_call_ends with (program c x); [reflexivity|]. rewrite turns_repeat. lia. }
  assert (B : forall x y, none_running (race c ([Start x] ++ repeat (Turn 0) 1000)) y).
  { intros x y n a Hn. assert (L : length (threads (race c ([Start x] ++ repeat (Turn 0) 1000))) = 1%nat).
    { rewrite race_app, threads_repeat. reflexivity. }
    assert (n = 0%nat) as ->. { assert (X : nth_error (threads (race c ([Start x] ++ repeat (Turn 0) 1000))) n <> None) by congruence. apply nth_error_Some in X. lia. }
    destruct (A x) as [o Ho]. unfold ended in Ho. rewrite Hn in Ho. exists o. congruence. }
  split; [apply S1|]. split; [|split; [apply B|]].
  - destruct (A CSingle) as [o Ho]. assert (o = Returned) as <-; [|exact Ho].
    apply (single_alone c Bpt Hc ([Start CSingle] ++ repeat (Turn 0) 1000)) with 0%nat; [unfold singles; rewrite S1; apply le_n|rewrite S1; intros [X|[]]; discriminate X|exact Ho].
  - exists ([Start CDouble] ++ repeat (Turn 0) 1000). split; [apply S1|]. split; [|apply B].
    destruct (A CDouble) as [o Ho]. assert (o = Returned) as <-; [|exact Ho].
    apply (double_alone c Bpt Hc ([Start CDouble] ++ repeat (Turn 0) 1000)) with 0%nat; [rewrite S1; intros [X|[]]; discriminate X|exact Ho].
Qed.
Lemma returned_table c P h : repc P3 c P -> threads (race c h) = [(CSingle, Fin Returned)] -> exists t, m_single (memory (race c h)) = Some t.
Proof.
  intros Hc T.
  assert (NR : none_running (race c h) CSingle).
  { intros n a Hn. rewrite T in Hn. destruct n as [|[|n]]; try discriminate Hn. cbn [nth_error] in Hn. exists Returned. congruence. }
  destruct (single_done c P Hc h NR) as (rows & R & _).
  { left. exists 0%nat. unfold ended. rewrite T. reflexivity. }
  unfold seen in R. cbn [r_single] in R. destruct (m_single (memory (race c h))) as [t|]; [exists t; reflexivity|discriminate R].
Qed.
Lemma one_thread c P k : repc P3 c P -> (exists o, ended (race c ([Start CSingle] ++ repeat (Turn 0) k)) 0 CSingle o) ->
  threads (race c ([Start CSingle] ++ repeat (Turn 0) k)) = [(CSingle, Fin Returned)].
Proof.
  intros Hc (o & Ho).
  assert (S1 : started ([Start CSingle] ++ repeat (Turn 0) k) = [CSingle]) by (rewrite started_app, started_turns; reflexivity).
  assert (o = Returned) as ->.
  { apply (single_alone c P Hc ([Start CSingle] ++ repeat (Turn 0) k)) with 0%nat; [unfold singles; rewrite S1; apply le_n|rewrite S1; intros [X|[]]; discriminate X|exact Ho]. }
  assert (L : length (threads (race c ([Start CSingle] ++ repeat (Turn 0) k))) = 1%nat) by (rewrite race_app, threads_repeat; reflexivity).
  unfold ended in Ho. revert L Ho. generalize (threads (race c ([Start CSingle] ++ repeat (Turn 0) k))). intros T L Ho.
  destruct T as [|y [|z q]]; try discriminate L. cbn [nth_error] in Ho. apply some_inj in Ho. rewrite Ho. reflexivity.
Qed.
Lemma one_ended c : exists k, exists o, ended (race c ([Start CSingle] ++ repeat (Turn 0) k)) 0 CSingle o.
Proof.
  exists 1000%nat. apply every_call_ends with (program c CSingle); [reflexivity|]. rewrite turns_repeat. apply le_n.
Qed.
Lemma one_returned c P : repc P3 c P -> exists h, threads (race c h) = [(CSingle, Fin Returned)] /\ exists t, m_single (memory (race c h)) = Some t.
Proof.
  intros Hc. destruct (one_ended c) as (k & Hk). pose proof (one_thread c P k Hc Hk) as T. exists ([Start CSingle] ++ repeat (Turn 0) k).
  split; [exact T|]. exact (returned_table c P _ Hc T).
Qed.
Lemma ex_safe : exists c h, repc P3 c Bpt /\ none_running (race c h) CSingle /\ none_running (race c h) CDouble /\ r_single (seen c (memory (race c h))) <> None.
Proof.
  destruct (every_point Bpt) as (_ & (c & Hc) & _). destruct (one_returned c Bpt Hc) as (h & T & t & M). exists c, h. split; [exact Hc|].
  assert (K : forall y, none_running (race c h) y).
  { intros y n a Hn. rewrite T in Hn. destruct n as [|[|n]]; try discriminate Hn. cbn [nth_error] in Hn. exists Returned. congruence. }
  split; [apply K|]. split; [apply K|]. unfold seen. cbn [r_single]. rewrite M. discriminate.
Qed.

(** ** IsPrecomputedForDoubleScalarMultiplication says what it sees when it has its turn *)
Lemma no_double c m : r_double (seen c m) = None <-> m_double m = None.
Proof. unfold seen. cbn [r_double]. destruct (m_double m); cbn [option_map]; split; intros X; try discriminate X; reflexivity. Qed.
Lemma is_asked c : forall h n a, nth_error (threads (race c h)) n = Some (CIsDouble, a) -> a = p_is_double \/
  exists h1 h2, h = h1 ++ Turn n :: h2 /\ nth_error (threads (race c h1)) n = Some (CIsDouble, p_is_double) /\
    a = Fin (Answer (match m_double (memory (race c h1)) with None => false | Some _ => true end)).
Proof.
  induction h as [|e h IH] using rev_ind; intros n a.
  - destruct n; intros X; discriminate X.
  - rewrite race_app. change (m_run c (race c h) [e]) with (m_step c (race c h) e).
    assert (K : forall b, nth_error (threads (race c h)) n = Some (CIsDouble, b) -> b = p_is_double \/
      exists h1 h2, h ++ [e] = h1 ++ Turn n :: h2 /\ nth_error (threads (race c h1)) n = Some (CIsDouble, p_is_double) /\
        b = Fin (Answer (match m_double (memory (race c h1)) with None => false | Some _ => true end))).
    { intros b E. destruct (IH n b E) as [Q|(h1 & h2 & -> & E1 & E2)]; [left; exact Q|]. right. exists h1, (h2 ++ [e]).
      split; [rewrite <- app_assoc; reflexivity|]. split; assumption. }
    destruct e as [x|k]; cbn [m_step].
    + cbn [threads]. intros E. apply nth_snoc in E as [[E _]|[_ E]]; [exact (K _ E)|]. left.
      pose proof (pair_l _ _ _ _ E) as E1. pose proof (pair_r _ _ _ _ E) as E2. subst a. rewrite E1. reflexivity.
    + destruct (nth_error (threads (race c h)) k) as [[x b]|] eqn:En; [|exact (K a)].
      destruct (act_step (memory (race c h)) b) as [m' b'] eqn:Eb. cbn [threads]. rewrite (nth_set_nth _ _ _ n _ En).
      destruct (Nat.eqb_spec n k) as [->|Hn]; [|exact (K a)]. intros E. apply some_inj in E.
      pose proof (pair_l _ _ _ _ E) as E1. pose proof (pair_r _ _ _ _ E) as E2. subst x a.
      destruct (K _ En) as [->|(h1 & h2 & E1 & E2 & ->)].
      * right. exists h, []. split; [reflexivity|]. split; [exact En|]. unfold p_is_double in Eb. cbn [act_step] in Eb. exact (pair_r _ _ _ _ Eb).
      * right. exists h1, h2. split; [exact E1|]. split; [exact E2|]. cbn [act_step] in Eb. exact (pair_r _ _ _ _ Eb).
Qed.
Lemma is_double c h n b : ended (race c h) n CIsDouble (Answer b) -> exists h1 h2, h = h1 ++ Turn n :: h2 /\
  (exists a, nth_error (threads (race c h1)) n = Some (CIsDouble, a) /\ forall o, a <> Fin o) /\
  (b = true <-> r_double (seen c (memory (race c h1))) <> None).
Proof.
  intros H. destruct (is_asked c h n _ H) as [X|(h1 & h2 & E & E1 & X)]; [discriminate X|].
  exists h1, h2. split; [exact E|]. split; [exists p_is_double; split; [exact E1|discriminate]|].
  injection X as ->. pose proof (no_double c (memory (race c h1))) as N. destruct (m_double (memory (race c h1))).
  - split; [|reflexivity]. intros _ Q. apply N in Q. discriminate Q.
  - split; [discriminate|]. intros Q. elim Q. apply N. reflexivity.
Qed.
