(** Lemmas for C89: calls on one group element on a weak memory. *)
From Coq Require Import List ZArith Lia Bool.
From Verif Require Import GoBase FieldModel GroupModel Fp Curve GroupSpec GroupProofs ScalarMul TextModel TextSpec PropTextLemmas
  BasePoint PropGroupLemmas RecoverModel PropRecoverLemmas RaceModel RaceSpec RaceProofs PropRaceLemmas WeakModel WeakSpec WeakProofs.
Import ListNotations.
Open Scope Z_scope.

(** ** What there can be *)
Section Sound.
Variable c : gcore.
Variable P : point.
Hypothesis Hc : repc P3 c P.
Variable s : weak.
Hypothesis Hs : wmoves c wblank s.
Lemma weak_entries : (forall t i r j e, In (SRow t i r) (stores s) -> In (SEntry r j e) (stores s) -> repc PRECOMPUTED e (zmul ((Z.of_nat j + 1) * 256 ^ Z.of_nat i) P)) /\
  (forall t j e, In (SDEntry t j e) (stores s) -> repc PRECOMPUTED e (zmul (2 * Z.of_nat j + 1) P)).
Proof.
  destruct (inv_moves c P Hc s Hs) as [I _]. split.
  - intros t i r j e. exact (so_entry P _ I t i r j e).
  - intros t j e. exact (so_dentry P _ I t j e).
Qed.
Lemma weak_ends x o : has_ended s x o -> ends P x o.
Proof. intros (n & H). destruct (inv_moves c P Hc s Hs) as [_ I]. exact (I _ _ _ H). Qed.
Lemma weak_select pos b o : has_ended s (CSelect pos b) o ->
  failed o \/ exists r, o = Result (ROk r) /\ (repc PRECOMPUTED r (zmul (digit b * 256 ^ pos) P) \/ repc PRECOMPUTED r pzero).
Proof. exact (weak_ends _ _). Qed.
Lemma weak_multiply a o : wf_bytes a -> has_ended s (CMultiply a) o ->
  failed o \/ exists d keep r, o = Result (ROk r) /\ signed_digits (le_val (firstn 32 a)) d /\ length keep = 64%nat /\
    (8 < nth 63 d 0 -> nth 63 keep true = false) /\ repc P3 r (zmul (kept keep d) P).
Proof. intros W H. exact (weak_ends _ _ H W). Qed.
Lemma weak_others o : (has_ended s CSingle o \/ has_ended s CDouble o -> o = Returned \/ o = Panicked) /\
  (has_ended s CIsDouble o -> o = Panicked \/ exists b, o = Answer b).
Proof. split; [intros [H|H]; exact (weak_ends _ _ H)|intros H; exact (weak_ends _ _ H)]. Qed.
End Sound.

(** ** IsPrecomputedForDoubleScalarMultiplication *)
Lemma weak_is_double c s : wmoves c wblank s -> forall a n, In (CIsDouble, a, n) (calls s) ->
  a = p_is_double \/ a = Fin Panicked \/ a = Fin (Answer false) \/ a = Fin (Answer true) /\ exists t, In (SDouble t) (stores s).
Proof.
  intros M. induction M as [|s1 s2 M IH W]; [intros a n []|].
  destruct W as [l ts x|l ts ts' x a n l' a' W]; cbn [calls stores] in *; intros b m H.
  - apply in_app_or in H as [H|[H|[]]]; [exact (IH _ _ H)|]. left.
    pose proof (pair_l _ _ _ _ H) as E. pose proof (pair_l _ _ _ _ E) as E1. pose proof (pair_r _ _ _ _ E) as E2. subst b. rewrite E1. reflexivity.
  - assert (S' : forall y, In y l -> In y l') by (intros y Y; destruct W; try exact Y; right; exact Y).
    assert (K : forall b m, In (CIsDouble, b, m) (ts ++ (x, a, n) :: ts') -> b = p_is_double \/ b = Fin Panicked \/ b = Fin (Answer false) \/
      b = Fin (Answer true) /\ exists t, In (SDouble t) l').
    { intros b0 m0 H0. destruct (IH _ _ H0) as [Q|[Q|[Q|[Q (t & T)]]]]; auto. right. right. right. split; [exact Q|]. exists t. exact (S' _ T). }
    apply in_app_or in H as [H|[H|H]]; [apply (K b m), in_or_app; left; exact H| |apply (K b m), in_or_app; right; right; exact H].
    pose proof (pair_l _ _ _ _ H) as E. pose proof (pair_l _ _ _ _ E) as E1. pose proof (pair_r _ _ _ _ E) as E2. subst b. subst x.
    destruct (K a n ltac:(apply in_or_app; right; left; reflexivity)) as [->|[->|[->|[-> _]]]]; [|inversion W..].
    right. unfold p_is_double in W. inversion W; subst.
    + right. right. split; [reflexivity|]. exists t. assumption.
    + right. left. reflexivity.
    + left. reflexivity.
Qed.
Lemma weak_answer c s : wmoves c wblank s -> has_ended s CIsDouble (Answer true) -> exists t, In (SDouble t) (stores s).
Proof.
  intros M (n & H). destruct (weak_is_double c s M _ _ H) as [X|[X|[X|[_ X]]]]; [discriminate X..|exact X].
Qed.

(** ** Every call ends *)
Section Ends.
Variable c : gcore.
Lemma within_wstep l a l' a' N : within a N -> wstep l a l' a' -> exists M, N = S M /\ within a' M.
Proof.
  intros H W. destruct W; cbn [within] in H; destruct N as [|N]; try contradiction; exists N; (split; [reflexivity|]); auto; exact I.
Qed.
Lemma within_moves s : wmoves c wblank s -> forall x a n, In (x, a, n) (calls s) -> (n <= 1000)%nat /\ within a (1000 - n).
Proof.
  intros M. induction M as [|s1 s2 M IH W]; [intros x a n []|].
  destruct W as [l ts x|l ts ts' x a n l' a' W]; cbn [calls] in *; intros y b m H.
  - apply in_app_or in H as [H|[H|[]]]; [exact (IH _ _ _ H)|]. injection H as <- <- <-. split; [lia|]. rewrite Nat.sub_0_r. apply w_program.
  - apply in_app_or in H as [H|[H|H]].
    + apply (IH y b m). apply in_or_app. left. exact H.
    + injection H as <- <- <-. destruct (IH x a n ltac:(apply in_or_app; right; left; reflexivity)) as (L & K).
      destruct (within_wstep _ _ _ _ _ K W) as (k & E & K'). replace (1000 - S n)%nat with k by lia. split; [lia|exact K'].
    + apply (IH y b m). apply in_or_app. right. right. exact H.
Qed.
Lemma weak_steps s x a n : wmoves c wblank s -> In (x, a, n) (calls s) -> (n <= 1000)%nat.
Proof. intros M H. exact (proj1 (within_moves s M x a n H)). Qed.
Definition num (y : store) : nat := match y with SSingle t | SDouble t => t | SRow _ _ r => r | _ => 0%nat end.
Lemma fresh (l : list store) : exists t, forall y, In y l -> (num y < t)%nat.
Proof.
  induction l as [|y l (t & IH)]; [exists 0%nat; intros y []|]. exists (S (num y + t)). intros z [<-|H]; [lia|]. specialize (IH z H). lia.
Qed.
Lemma weak_progress l a : (forall o, a <> Fin o) -> exists l' a', wstep l a l' a'.
Proof.
  intros H. destruct (fresh l) as (m & F). destruct a as [o|k|k|k|k|t i k|t i k|r j k|r j e k|t j e k].
  - elim (H o). reflexivity.
  - exists l, (k None). apply w_single_nil.
  - exists l, (k None). apply w_double_nil.
  - exists (SSingle m :: l), k. apply w_new_single. intros X. specialize (F _ X). cbn [num] in F. lia.
  - exists (SDouble m :: l), k. apply w_new_double. intros X. specialize (F _ X). cbn [num] in F. lia.
  - exists l, (k None). apply w_row_nil.
  - exists (SRow t i m :: l), k. apply w_new_row. intros t' i' X. specialize (F _ X). cbn [num] in F. lia.
  - exists l, (k None). apply w_entry_nil.
  - exists (SEntry r j e :: l), k. apply w_store.
  - exists (SDEntry t j e :: l), k. apply w_store_double.
Qed.
End Ends.

(** ** The machine of [RaceModel] is one of the behaviours *)
Record held_by (m : mem) (l : list store) : Prop := {
  h_single : forall t, m_single m = Some t -> In (SSingle t) l;
  h_double : forall t, m_double m = Some t -> In (SDouble t) l;
  h_tab : forall t i r, tab m t i = Some r -> In (SRow t i r) l;
  h_row : forall r j e, row m r j = Some e -> In (SEntry r j e) l;
  h_ntab : forall t, In (SSingle t) l -> (t < ntab m)%nat;
  h_ndtab : forall t, In (SDouble t) l -> (t < ndtab m)%nat;
  h_nrow : forall t i r, In (SRow t i r) l -> (r < nrow m)%nat;
  h_dtab : forall t j e, dtab m t j = Some e -> In (SDEntry t j e) l }.
Lemma held_step m l a : held_by m l -> (exists o, a = Fin o) \/ exists l', wstep l a l' (snd (act_step m a)) /\ held_by (fst (act_step m a)) l'.
Proof.
  intros H. pose proof H as [H1 H2 H3 H4 H5 H6 H7 H8].
  destruct a as [o|k|k|k|k|t i k|t i k|r j k|r j e k|t j e k]; [left; exists o; reflexivity|right..]; cbn [act_step fst snd].
  - exists l. split; [|exact H]. destruct (m_single m) as [t|] eqn:E; [apply w_single; apply H1; reflexivity|apply w_single_nil].
  - exists l. split; [|exact H]. destruct (m_double m) as [t|] eqn:E; [apply w_double; apply H2; reflexivity|apply w_double_nil].
  - exists (SSingle (ntab m) :: l). split; [apply w_new_single; intros X; specialize (H5 _ X); lia|].
    constructor; cbn [m_single m_double tab ntab row nrow dtab ndtab].
    + intros t X. apply some_inj in X. subst t. left. reflexivity.
    + intros t X. right. apply H2, X.
    + intros t i r X. right. unfold put in X. destruct (Nat.eqb t (ntab m)); [discriminate X|]. apply H3, X.
    + intros r j e X. right. apply H4, X.
    + intros t [X|X]; [injection X as <-; lia|]. specialize (H5 _ X). lia.
    + intros t [X|X]; [discriminate X|]. exact (H6 _ X).
    + intros t i r [X|X]; [discriminate X|]. exact (H7 _ _ _ X).
    + intros t0 j0 e0 X. right. apply H8, X.
  - exists (SDouble (ndtab m) :: l). split; [apply w_new_double; intros X; specialize (H6 _ X); lia|].
    constructor; cbn [m_single m_double tab ntab row nrow dtab ndtab].
    + intros t X. right. apply H1, X.
    + intros t X. apply some_inj in X. subst t. left. reflexivity.
    + intros t i r X. right. apply H3, X.
    + intros r j e X. right. apply H4, X.
    + intros t [X|X]; [discriminate X|]. exact (H5 _ X).
    + intros t [X|X]; [injection X as <-; lia|]. specialize (H6 _ X). lia.
    + intros t i r [X|X]; [discriminate X|]. exact (H7 _ _ _ X).
    + intros t j e X. right. unfold put in X. destruct (Nat.eqb t (ndtab m)); [discriminate X|]. apply H8, X.
  - exists l. split; [|exact H]. destruct (tab m t i) as [r|] eqn:E; [apply w_row; apply H3, E|apply w_row_nil].
  - exists (SRow t i (nrow m) :: l). split; [apply w_new_row; intros t' i' X; specialize (H7 _ _ _ X); lia|].
    constructor; cbn [m_single m_double tab ntab row nrow dtab ndtab].
    + intros t' X. right. apply H1, X.
    + intros t' X. right. apply H2, X.
    + intros t' i' r X. unfold put in X. destruct (Nat.eqb_spec t' t) as [->|]; [|right; apply H3, X].
      destruct (Nat.eqb_spec i' i) as [->|]; [|right; apply H3, X]. apply some_inj in X. subst r. left. reflexivity.
    + intros r j e X. right. unfold put in X. destruct (Nat.eqb r (nrow m)); [discriminate X|]. apply H4, X.
    + intros t' [X|X]; [discriminate X|]. exact (H5 _ X).
    + intros t' [X|X]; [discriminate X|]. exact (H6 _ X).
    + intros t' i' r [X|X]; [injection X as <- <- <-; lia|]. specialize (H7 _ _ _ X). lia.
    + intros t0 j0 e0 X. right. apply H8, X.
  - exists l. split; [|exact H]. destruct (row m r j) as [e|] eqn:E; [apply w_entry; apply H4, E|apply w_entry_nil].
  - exists (SEntry r j e :: l). split; [apply w_store|].
    constructor; cbn [m_single m_double tab ntab row nrow dtab ndtab].
    + intros t' X. right. apply H1, X.
    + intros t' X. right. apply H2, X.
    + intros t' i' r' X. right. apply H3, X.
    + intros r' j' e' X. unfold put in X. destruct (Nat.eqb_spec r' r) as [->|]; [|right; apply H4, X].
      destruct (Nat.eqb_spec j' j) as [->|]; [|right; apply H4, X]. apply some_inj in X. subst e'. left. reflexivity.
    + intros t' [X|X]; [discriminate X|]. exact (H5 _ X).
    + intros t' [X|X]; [discriminate X|]. exact (H6 _ X).
    + intros t' i' r' [X|X]; [discriminate X|]. exact (H7 _ _ _ X).
    + intros t0 j0 e0 X. right. apply H8, X.
  - exists (SDEntry t j e :: l). split; [apply w_store_double|].
    constructor; cbn [m_single m_double tab ntab row nrow dtab ndtab].
    + intros t' X. right. apply H1, X.
    + intros t' X. right. apply H2, X.
    + intros t' i' r' X. right. apply H3, X.
    + intros r' j' e' X. right. apply H4, X.
    + intros t' [X|X]; [discriminate X|]. exact (H5 _ X).
    + intros t' [X|X]; [discriminate X|]. exact (H6 _ X).
    + intros t' i' r' [X|X]; [discriminate X|]. exact (H7 _ _ _ X).
    + intros t' j' e' X. unfold put in X. destruct (Nat.eqb_spec t' t) as [->|]; [|right; apply H8, X].
      destruct (Nat.eqb_spec j' j) as [->|]; [|right; apply H8, X]. apply some_inj in X. subst e'. left. reflexivity.
Qed.
Lemma set_nth_split {A} (l : list A) : forall n x y, nth_error l n = Some x -> exists u v, l = u ++ x :: v /\ set_nth l n y = u ++ y :: v.
Proof.
  induction l as [|z l IH]; intros [|n] x y H; cbn [nth_error] in H; try discriminate H.
  - apply some_inj in H. subst z. exists [], l. split; reflexivity.
  - destruct (IH _ _ y H) as (u & v & -> & E). exists (z :: u), v. split; [reflexivity|]. cbn [set_nth]. rewrite E. reflexivity.
Qed.
Lemma map_split {A B} (f : A -> B) (l : list A) : forall u x v, map f l = u ++ x :: v -> exists u' x' v', l = u' ++ x' :: v' /\ map f u' = u /\ f x' = x /\ map f v' = v.
Proof.
  induction l as [|z l IH]; intros [|y u] x v H; cbn [map app] in H; try discriminate H.
  - injection H as H1 H2. exists [], z, l. repeat split; assumption.
  - injection H as H1 H2. destruct (IH _ _ _ H2) as (u' & x' & v' & -> & E1 & E2 & E3). exists (z :: u'), x', v'.
    repeat split; try assumption. cbn [map]. rewrite H1, E1. reflexivity.
Qed.
Lemma includes c h : exists s, wmoves c wblank s /\ map fst (calls s) = threads (race c h) /\ held_by (memory (race c h)) (stores s).
Proof.
  induction h as [|e h IH] using rev_ind.
  - exists wblank. split; [apply wms_here|]. split; [reflexivity|]. constructor; cbn; intros; try discriminate; contradiction.
  - rewrite race_app. change (m_run c (race c h) [e]) with (m_step c (race c h) e). destruct IH as ([l ts] & M & E & H). destruct e as [x|n]; cbn [m_step].
    + exists (Weak l (ts ++ [(x, program c x, 0%nat)])). split; [exact (wms_more _ _ _ _ M (wm_start _ _ _ _))|]. cbn [calls threads memory stores] in *.
      split; [rewrite map_app, E; reflexivity|exact H].
    + destruct (nth_error (threads (race c h)) n) as [[x a]|] eqn:En; [|exists (Weak l ts); auto].
      destruct (act_step (memory (race c h)) a) as [m' a'] eqn:Ea. cbn [threads memory].
      destruct (set_nth_split _ _ _ (x, a') En) as (u & v & E1 & ->). cbn [calls stores] in *. rewrite E1 in E.
      destruct (held_step _ _ a H) as [(o & Ho)|(l' & W & H')].
      * rewrite Ho in Ea. cbn [act_step] in Ea. injection Ea as <- <-. exists (Weak l ts). split; [exact M|]. split; [|exact H]. cbn [calls]. rewrite E, Ho. reflexivity.
      * rewrite Ea in W, H'. cbn [fst snd] in W, H'. destruct (map_split _ _ _ _ _ E) as (u' & [[x0 a0] k] & v' & -> & E2 & E3 & E4). cbn [fst] in E3.
        pose proof (f_equal fst E3) as E5. pose proof (f_equal snd E3) as E6. cbn [fst snd] in E5, E6. subst x0 a0.
        exists (Weak l' (u' ++ (x, a', S k) :: v')). split; [exact (wms_more _ _ _ _ M (wm_turn _ _ _ _ _ _ _ _ _ W))|].
        split; [|exact H']. cbn [calls]. rewrite map_app, E2. cbn [map fst]. rewrite E4. reflexivity.
Qed.
Lemma includes_race c h : exists s, wmoves c wblank s /\ map fst (calls s) = threads (race c h).
Proof. destruct (includes c h) as (s & H1 & H2 & _). exists s. split; assumption. Qed.

(** ** One call that is alone, after another one *)
Inductive walks (l : list store) : act -> act -> Prop :=
| wk_here a : walks l a a
| wk_more a b d : wstep l a l b -> walks l b d -> walks l a d.
Lemma walks_trans l a b d : walks l a b -> walks l b d -> walks l a d.
Proof. intros H. induction H as [|a b e W H IH]; intros K; [exact K|]. apply (wk_more _ _ b); [exact W|]. exact (IH K). Qed.
Lemma walks_moves c s l a b : walks l a b -> forall ts x n, wmoves c s (Weak l (ts ++ [(x, a, n)])) -> exists m, wmoves c s (Weak l (ts ++ [(x, b, m)])).
Proof.
  intros H. induction H as [|a b d W H IH]; intros ts x n M; [exists n; exact M|].
  apply (IH ts x (S n)). exact (wms_more _ _ _ _ M (wm_turn _ _ _ _ _ _ _ _ _ W)).
Qed.
Section Nil.
Variable l : list store.
Variable t : nat.
Hypothesis Ht : In (SSingle t) l.
Lemma nil_select pos b k : 0 <= pos < 32 -> exists r, repc PRECOMPUTED r pzero /\ walks l (p_select pos b k) (k (ROk r)).
Proof.
  intros Hp. destruct (minus_pick _ _ b zero_prec_rep) as (r & Er & Hr). rewrite pneg_0 in Hr. exists r.
  split; [destruct (residue b <? 0); exact Hr|]. unfold p_select. cbv zeta. eapply wk_more; [apply (w_single _ t); exact Ht|]. cbv beta iota.
  destruct (Z.ltb_spec pos 0); [lia|]. destruct (Z.leb_spec 32 pos); [lia|]. cbn [orb].
  eapply wk_more; [apply w_row_nil|]. cbv beta iota. cbn [rbind]. rewrite Er. cbn [of_plain]. apply wk_here.
Qed.
Lemma nil_loop e : forall is h k, (forall i, In i is -> (i < 64)%nat) -> repc P3 h pzero -> exists r, repc P3 r pzero /\ walks l (p_sm_loop e is h k) (k (ROk r)).
Proof.
  induction is as [|i is IH]; intros h k HI H; cbn [p_sm_loop]; [exists h; split; [exact H|apply wk_here]|].
  assert (Hi : 0 <= Z.of_nat (i / 2) < 32).
  { specialize (HI i (or_introl eq_refl)). assert (i / 2 < 32)%nat by (apply Nat.div_lt_upper_bound; lia). lia. }
  match goal with |- context [p_select ?p ?b ?k] => destruct (nil_select p b k Hi) as (q & Hq & W) end. cbv beta in W. cbn [rbind] in W.
  destruct (g_precomputedAdd_ok _ _ _ _ H Hq) as (u & Eu & Hu). destruct (to_P3_P1 _ _ Hu) as (h' & Eh & Hh).
  rewrite Eu in W. cbn [bind] in W. rewrite Eh in W. cbn [of_plain] in W. rewrite padd_0_l in Hh.
  destruct (IH h' k (fun i0 X => HI i0 (or_intror X)) Hh) as (r & Hr & W2). exists r. split; [exact Hr|]. exact (walks_trans _ _ _ _ W W2).
Qed.
Lemma nil_multiply a : wf_bytes a -> (32 <= length a)%nat -> exists r, repc P3 r pzero /\ walks l (p_scalar_multiply a) (Fin (Result (ROk r))).
Proof.
  intros W L. unfold p_scalar_multiply. destruct (to_radix16_ok a W L) as (e & -> & _).
  match goal with |- context [p_sm_loop e ?i1 zero_P3 ?k1] => destruct (nil_loop e i1 zero_P3 k1) as (h & H & K) end; [|exact zero_P3_rep|].
  { intros i Hi. apply in_map_iff in Hi as (k & <- & Hk). apply in_seq in Hk. lia. }
  cbv beta in K. cbn [rbind] in K.
  destruct (g_dbl_P3 _ _ H) as (d1 & E1 & H1). rewrite E1 in K. cbn [bind] in K. destruct (to_P2_P1 _ _ H1) as (h1 & F1 & G1). rewrite F1 in K. cbn [bind] in K.
  destruct (g_dbl_P2 _ _ G1) as (d2 & E2 & H2). rewrite E2 in K. cbn [bind] in K. destruct (to_P2_P1 _ _ H2) as (h2 & F2 & G2). rewrite F2 in K. cbn [bind] in K.
  destruct (g_dbl_P2 _ _ G2) as (d3 & E3 & H3). rewrite E3 in K. cbn [bind] in K. destruct (to_P2_P1 _ _ H3) as (h3 & F3 & G3). rewrite F3 in K. cbn [bind] in K.
  destruct (g_dbl_P2 _ _ G3) as (d4 & E4 & H4). rewrite E4 in K. cbn [bind] in K. destruct (to_P3_P1 _ _ H4) as (h4 & F4 & G4). rewrite F4 in K. cbn [of_plain] in K.
  rewrite !padd_0_l in G4.
  match type of K with walks _ _ (p_sm_loop e ?i2 h4 ?k2) => destruct (nil_loop e i2 h4 k2) as (r & Hr & K2) end; [|exact G4|].
  { intros i Hi. apply in_map_iff in Hi as (k & <- & Hk). apply in_seq in Hk. lia. }
  exists r. split; [exact Hr|]. exact (walks_trans _ _ _ _ K K2).
Qed.
End Nil.
Lemma wmoves_trans c s s1 s2 : wmoves c s s1 -> wmoves c s1 s2 -> wmoves c s s2.
Proof. intros H K. induction K as [|s3 s4 K IH W]; [exact H|]. exact (wms_more _ _ _ _ IH W). Qed.
Lemma not_enough c P : repc P3 c P -> exists s, wmoves c wblank s /\ map fst (calls s) = [(CSingle, Fin Returned)] /\
  forall a, wf_bytes a -> (32 <= length a)%nat -> exists s' r, wmoves c s s' /\
    map fst (calls s') = [(CSingle, Fin Returned); (CMultiply a, Fin (Result (ROk r)))] /\ repc P3 r pzero.
Proof.
  intros Hc. destruct (one_returned c P Hc) as (h & T & t & M). destruct (includes c h) as ([l ts] & W & E & H). cbn [calls stores] in *.
  exists (Weak l ts). split; [exact W|]. split; [cbn [calls]; rewrite E; exact T|]. intros a Wa La.
  destruct (nil_multiply l t (h_single _ _ H t M) a Wa La) as (r & Hr & K).
  destruct (walks_moves c (Weak l ts) _ _ _ K ts (CMultiply a) 0%nat) as (m & Mm).
  { exact (wms_more _ _ _ _ (wms_here _ _) (wm_start _ _ _ (CMultiply a))). }
  exists (Weak l (ts ++ [(CMultiply a, Fin (Result (ROk r)), m)])), r. split; [exact Mm|]. split; [|exact Hr].
  cbn [calls]. transitivity (map fst ts ++ map fst [(CMultiply a, Fin (Result (ROk r)), m)]); [apply map_app|]. rewrite E, T. reflexivity.
Qed.
Lemma ex_weak : exists c s, repc P3 c Bpt /\ wmoves c wblank s /\ has_ended s CSingle Returned /\
  exists a r, wf_bytes a /\ has_ended s (CMultiply a) (Result (ROk r)) /\ repc P3 r pzero /\ zmul (le_val (firstn 32 a)) Bpt <> pzero.
Proof.
  destruct (every_point Bpt) as (_ & (c & Hc) & _). destruct (not_enough c Bpt Hc) as (s & M & E & K).
  destruct (K (5 :: repeat 0 31)) as (s' & r & M' & E' & Hr).
  { constructor; [unfold is_byte; lia|]. apply Forall_forall. intros x Hx. apply repeat_spec in Hx. subst x. unfold is_byte. lia. }
  { reflexivity. }
  exists c, s'. split; [exact Hc|]. split; [exact (wmoves_trans _ _ _ _ M M')|].
  assert (G : forall y, In y (map fst (calls s')) -> exists n, In (fst y, snd y, n) (calls s')).
  { intros y Hy. apply in_map_iff in Hy as ([[x a] n] & <- & Hx). exists n. exact Hx. }
  split; [exact (G (CSingle, Fin Returned) ltac:(rewrite E'; left; reflexivity))|].
  exists (5 :: repeat 0 31), r. split; [|split; [|split; [exact Hr|]]].
  - constructor; [unfold is_byte; lia|]. apply Forall_forall. intros x Hx. apply repeat_spec in Hx. subst x. unfold is_byte. lia.
  - exact (G (CMultiply (5 :: repeat 0 31), Fin (Result (ROk r))) ltac:(rewrite E'; right; left; reflexivity)).
  - replace (le_val (firstn 32 (5 :: repeat 0 31))) with 5 by (vm_compute; reflexivity). rewrite <- (zmul_0 Bpt). intros X. apply zmul_B_inj in X. vm_compute in X. discriminate X.
Qed.
