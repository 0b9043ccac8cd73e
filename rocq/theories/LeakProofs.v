(** Proofs about traces. *)
From Coq Require Import List ZArith Lia Bool Arith.
From Verif Require Import GoBase FieldModel FieldSpec FieldProofs ByteLemmas EncodeProofs ScalarModel ScalarProofs Fp Curve Primality BasePoint GroupModel GroupSpec
  GroupProofs TableProofs PointCodec ScalarMul ApiModel ApiSpec ApiProofs LeakModel LeakSpec.
Import ListNotations.
Open Scope Z_scope.

(** ** Results *)
Lemma snd_lbind {A B} (x : leak A) (f : A -> leak B) : snd (lbind x f) = bind (snd x) (fun a => snd (f a)).
Proof. destruct x as [t [a|e|]]; cbn [lbind snd bind]; try reflexivity. destruct (f a). reflexivity. Qed.
Lemma snd_checked {A} (x : leak A) : snd (checked x) = snd x.
Proof. destruct x as [t [a|e|]]; reflexivity. Qed.
Lemma snd_say {A} t (r : res A) : snd (say t r) = r.
Proof. reflexivity. Qed.
Lemma bind_ext {A B} (x : res A) (f g : A -> res B) : (forall a, f a = g a) -> bind x f = bind x g.
Proof. intros E. destruct x; cbn [bind]; auto. Qed.
Lemma same_cmov t u b : snd (l_cmov t u b) = g_cmov t u b.
Proof. unfold l_cmov, g_cmov. destruct (b =? 1); [reflexivity|]. destruct (b =? 0); reflexivity. Qed.
Lemma same_select_loop bAbs row : forall i t, snd (l_select_loop bAbs i row t) = select_loop bAbs i row t.
Proof.
  induction row as [|el row IH]; intros i t; [reflexivity|]. cbn [l_select_loop select_loop].
  rewrite snd_lbind, snd_checked, same_cmov. apply bind_ext. intros t'. rewrite snd_lbind. apply IH.
Qed.
Lemma same_select g pos b : snd (l_select g pos b) = g_select g pos b.
Proof.
  unfold l_select, g_select. destruct (single g) as [rows|]; [|reflexivity]. destruct (nth_error rows pos) as [row|]; [|reflexivity].
  rewrite snd_lbind, snd_say. cbn [bind]. rewrite snd_lbind, same_select_loop. apply bind_ext. intros t. apply same_cmov.
Qed.
Lemma same_sm_step g e i h : snd (l_sm_step g e i h) = sm_step g e i h.
Proof.
  unfold l_sm_step, sm_step. rewrite snd_lbind, snd_checked, same_select. apply bind_ext. intros s.
  rewrite snd_lbind, snd_checked. reflexivity.
Qed.
Lemma same_sm_loop g e is : forall h, snd (l_sm_loop g e is h) = sm_loop g e is h.
Proof.
  induction is as [|i is IH]; intros h; [reflexivity|]. cbn [l_sm_loop sm_loop]. rewrite snd_lbind, same_sm_step.
  apply bind_ext. exact IH.
Qed.
Lemma same_scalarMultiply g a : snd (l_scalarMultiply g a) = g_scalarMultiply g a.
Proof.
  unfold l_scalarMultiply, g_scalarMultiply.
  rewrite snd_lbind, snd_say. apply bind_ext. intros e.
  rewrite snd_lbind, same_sm_loop. apply bind_ext. intros h.
  do 8 (rewrite snd_lbind; apply bind_ext; intros ?). apply same_sm_loop.
Qed.
Lemma same_encode_proj g : snd (l_encode_proj g) = g_encode_proj g.
Proof. unfold l_encode_proj. rewrite snd_lbind. reflexivity. Qed.
Lemma same_encode g : snd (l_encode g) = g_encode g.
Proof.
  unfold l_encode, g_encode. rewrite snd_lbind, snd_say. cbn [bind]. destruct (g_cs g); try apply same_encode_proj;
    (rewrite snd_lbind; apply bind_ext; intros g2; rewrite snd_lbind, snd_say; cbn [bind]; apply same_encode_proj).
Qed.
Lemma same_canonical s : snd (l_is_canonical s) = Ok (is_canonical_signature s).
Proof. unfold l_is_canonical, is_canonical_signature. cbv zeta. destruct (negb _); reflexivity. Qed.
Section Same.
Variable H512 : list bytes -> bytes.
Variable H256 : bytes -> bytes.
Lemma same_derive k : snd (l_derive H512 k) = derive_public_key H512 k.
Proof.
  unfold l_derive, derive_public_key. rewrite snd_lbind. apply bind_ext. intros a.
  rewrite snd_lbind. apply bind_ext. intros B. rewrite snd_lbind. unfold must. cbn [snd]. rewrite same_scalarMultiply.
  apply bind_ext. intros p. cbv zeta. cbn [snd]. rewrite same_encode. reflexivity.
Qed.
Lemma snd_hash p : snd (l_hash H512 p) = Ok (H512 p).
Proof. reflexivity. Qed.
Lemma bind_ok' {A B} (a : A) (f : A -> res B) : bind (Ok a) f = f a.
Proof. reflexivity. Qed.
Lemma same_sign kp mess : snd (l_sign H512 kp mess) = sign H512 kp mess.
Proof.
  unfold l_sign, sign. rewrite snd_lbind. destruct (negb (has_private_key kp)); [reflexivity|]. rewrite snd_say. apply bind_ext. intros k.
  rewrite snd_lbind, snd_checked, snd_hash, bind_ok'. rewrite snd_lbind, snd_say.
  destruct (Nat.ltb (length (H512 [pk_raw k])) 32); [reflexivity|]. rewrite bind_ok'.
  rewrite snd_lbind, snd_checked, snd_hash, bind_ok'.
  rewrite snd_lbind, snd_checked. apply bind_ext. intros r. rewrite snd_lbind. apply bind_ext. intros rm.
  rewrite snd_lbind. apply bind_ext. intros B. rewrite snd_lbind, snd_checked, same_scalarMultiply. apply bind_ext. intros R.
  rewrite snd_lbind, snd_checked, same_encode. apply bind_ext. intros eR.
  rewrite snd_lbind, snd_checked, snd_hash, bind_ok'.
  rewrite snd_lbind, snd_checked. apply bind_ext. intros h. rewrite snd_lbind. apply bind_ext. intros hm.
  rewrite snd_lbind. apply bind_ext. intros a. rewrite snd_lbind. apply bind_ext. intros eS.
  rewrite snd_lbind, snd_checked. apply bind_ext. intros sg. rewrite snd_lbind, same_canonical. cbn [bind].
  destruct (negb (is_canonical_signature sg)); reflexivity.
Qed.
Lemma same_shared_key n priv pub salt : snd (l_get_shared_key H512 H256 n priv pub salt) = get_shared_key H512 H256 n priv pub salt.
Proof.
  unfold get_shared_key, l_get_shared_key.
  rewrite snd_lbind, snd_say. apply bind_ext. intros grA. rewrite snd_lbind, snd_say. apply bind_ext. intros c.
  rewrite snd_lbind, snd_say. apply bind_ext. intros sa. rewrite snd_lbind, snd_say. apply bind_ext. intros k.
  rewrite snd_lbind. apply bind_ext. intros a. rewrite snd_lbind, snd_checked, same_scalarMultiply.
  apply bind_ext. intros el. rewrite snd_lbind, snd_checked, same_encode. apply bind_ext. intros sk.
  rewrite snd_lbind. reflexivity.
Qed.
End Same.

(** ** Traces *)
Lemma fst_lbind {A B} (x : leak A) (f : A -> leak B) a : snd x = Ok a -> fst (lbind x f) = fst x ++ fst (f a).
Proof. destruct x as [t r]. cbn [snd]. intros ->. cbn [lbind fst]. destruct (f a). reflexivity. Qed.
Lemma fst_checked {A} (x : leak A) a : snd x = Ok a -> fst (checked x) = fst x ++ [Cond Elsewhere false].
Proof. destruct x as [t r]. cbn [snd]. intros ->. reflexivity. Qed.
Definition cev (c : bool) : list event := if c then [Cond InCmov true] else [Cond InCmov false; Cond InCmov true].
Definition oo : list event := [Cond Elsewhere false; Cond Elsewhere false].
Lemma cmov_bool t u (c : bool) : fst (l_cmov t u (if c then 1 else 0)) = cev c /\ exists r, snd (l_cmov t u (if c then 1 else 0)) = Ok r.
Proof. destruct c; cbn; eauto. Qed.
Lemma select_loop_trace b : 0 <= b <= 16 -> forall row i t, 0 <= i -> i + Z.of_nat (length row) <= 8 ->
  fst (l_select_loop b i row t) = flat_map (fun j => cev (b =? i + Z.of_nat j) ++ oo) (seq 1 (length row)).
Proof.
  intros Hb. induction row as [|el row IH]; intros i t Hi HL; [reflexivity|]. cbn [length] in *. cbn [l_select_loop seq flat_map].
  rewrite byte_eq_small by lia. destruct (cmov_bool t el (b =? i + 1)) as (T & r & R).
  rewrite (fst_lbind _ _ r) by (rewrite snd_checked; exact R). rewrite (fst_checked _ r R), T.
  rewrite (fst_lbind _ _ r) by reflexivity. rewrite IH by lia. cbn [say fst].
  rewrite <- (seq_shift (length row) 1). rewrite !flat_map_concat_map, map_map.
  change (Z.of_nat 1) with 1. unfold oo. rewrite <- !app_assoc. f_equal. cbn [app]. do 2 f_equal.
  f_equal. apply map_ext. intros j. do 3 f_equal. lia.
Qed.
Definition sel_trace (pos : nat) (b : Z) : list event :=
  Row pos :: flat_map (fun j => cev (Z.abs b =? Z.of_nat j) ++ oo) (seq 1 8) ++ cev (b <? 0).
Lemma select_trace g rows P pos b : single g = Some rows -> single_table rows P -> (pos < 32)%nat -> -8 <= b <= 16 ->
  fst (l_select g pos b) = sel_trace pos b.
Proof.
  intros Hs [L R] Hp Hb. unfold l_select. rewrite Hs.
  destruct (nth_error rows pos) as [row|] eqn:E; [|apply nth_error_None in E; lia].
  destruct (R pos row E) as [Lr Rr]. destruct (sign_split b Hb) as [S1 S2]. rewrite S2, S1.
  rewrite (fst_lbind _ _ row) by reflexivity. cbn [say fst app].
  destruct (select_loop_ok (Z.abs b) ltac:(lia) row 0 zero_precomputed (zmul (256 ^ Z.of_nat pos) P)) as (t & T & _).
  - lia.
  - rewrite Lr. lia.
  - replace ((1 <=? Z.abs b) && (Z.abs b <=? 0)) with false; [apply zero_prec_rep|].
    symmetry. apply andb_false_iff. destruct (Z.eq_dec b 0); [left; apply Z.leb_gt; lia|right; apply Z.leb_gt; lia].
  - intros j e Hj. rewrite <- zmul_mul. apply Rr, Hj.
  - rewrite (fst_lbind _ _ t) by (rewrite same_select_loop; exact T).
    rewrite (proj1 (cmov_bool _ _ _)). rewrite select_loop_trace by (rewrite ?Lr; lia). rewrite Lr. reflexivity.
Qed.
Definition step_trace (pos : nat) (b : Z) : list event :=
  sel_trace pos b ++ [Cond Elsewhere false; Switch P3; Switch PRECOMPUTED; Cond Elsewhere false; Switch P1xP1; Switch P3].
Lemma step_trace_ok g rows P e i h Q : single g = Some rows -> single_table rows P -> repc P3 h Q -> (i < 64)%nat -> -8 <= nth i e 0 <= 16 ->
  fst (l_sm_step g e i h) = step_trace (i / 2) (nth i e 0) /\ exists h' Q', snd (l_sm_step g e i h) = Ok h' /\ repc P3 h' Q'.
Proof.
  intros Hs HT H Hi Hd. rewrite same_sm_step. unfold l_sm_step, sm_step.
  assert (P32 : (i / 2 < 32)%nat) by (apply Nat.div_lt_upper_bound; lia).
  destruct (g_select_ok g rows P (i / 2) (nth i e 0) Hs HT P32 Hd) as (s & E1 & R1).
  destruct (g_precomputedAdd_ok _ _ _ _ H R1) as (t & E2 & R2). destruct (to_P3_P1 _ _ R2) as (h' & E3 & R3).
  split.
  - rewrite (fst_lbind _ _ s) by (rewrite snd_checked, same_select; exact E1).
    rewrite (fst_checked _ s) by (rewrite same_select; exact E1). rewrite (select_trace g rows P) by assumption.
    rewrite (fst_lbind _ _ t) by (rewrite snd_checked; exact E2). rewrite (fst_checked _ t) by exact E2.
    unfold l_precomputedAdd, l_to_cs, say. cbn [fst]. rewrite (proj1 H), (proj1 R1), (proj1 R2).
    unfold step_trace. rewrite <- app_assoc. reflexivity.
  - rewrite E1. cbn [bind]. rewrite E2. cbn [bind]. rewrite E3. eauto.
Qed.
Lemma loop_trace g rows P e : single g = Some rows -> single_table rows P ->
  forall is h Q, repc P3 h Q -> (forall i, In i is -> (i < 64)%nat /\ -8 <= nth i e 0 <= 16) ->
  fst (l_sm_loop g e is h) = flat_map (fun i => step_trace (i / 2) (nth i e 0)) is /\
  exists h' Q', snd (l_sm_loop g e is h) = Ok h' /\ repc P3 h' Q'.
Proof.
  intros Hs HT. induction is as [|i is IH]; intros h Q H K.
  - split; [reflexivity|]. exists h, Q. auto.
  - cbn [l_sm_loop flat_map]. destruct (K i (or_introl eq_refl)) as (K1 & K2).
    destruct (step_trace_ok g rows P e i h Q Hs HT H K1 K2) as (T & h' & Q' & E & R).
    destruct (IH h' Q' R) as (T2 & h2 & Q2 & E2 & R2); [intros j J; apply K; right; exact J|].
    rewrite (fst_lbind _ _ h') by exact E. rewrite snd_lbind, E. cbn [bind]. rewrite T, T2. split; [reflexivity|]. eauto.
Qed.
Definition mid_trace : list event :=
  [Switch P3; Switch P1xP1; Switch P2; Switch P2; Switch P1xP1; Switch P2; Switch P2; Switch P1xP1; Switch P2; Switch P2; Switch P1xP1; Switch P3].
Definition odds : list nat := map (fun k => 2 * k + 1)%nat (seq 0 32).
Definition evens : list nat := map (fun k => 2 * k)%nat (seq 0 32).
Definition sm_trace (e : list Z) : list event :=
  flat_map (fun i => step_trace (i / 2) (nth i e 0)) odds ++ mid_trace ++ flat_map (fun i => step_trace (i / 2) (nth i e 0)) evens.
Lemma scalarMultiply_trace g rows P a e : single g = Some rows -> single_table rows P -> wf_bytes a -> (32 <= length a)%nat ->
  to_radix16 a = Ok e -> fst (l_scalarMultiply g a) = sm_trace e.
Proof.
  intros Hs HT W L E. destruct (to_radix16_ok a W L) as (e' & E' & Le & De & D1 & D2 & D3). rewrite E in E'. injection E' as <-.
  assert (K : forall i, (i < 64)%nat -> (i < 64)%nat /\ -8 <= nth i e 0 <= 16).
  { intros i Hi. split; [exact Hi|]. destruct (Nat.eq_dec i 63) as [->|]; [lia|]. specialize (D1 i ltac:(lia)). lia. }
  unfold l_scalarMultiply. rewrite (fst_lbind _ _ e) by exact E. cbn [say fst app]. fold odds evens.
  destruct (loop_trace g rows P e Hs HT odds zero_P3 pzero zero_P3_rep) as (T1 & h & Q & E1 & R1).
  { intros i Hi. apply in_map_iff in Hi as (k & <- & Hk). apply in_seq in Hk. apply K. lia. }
  rewrite (fst_lbind _ _ h) by exact E1. rewrite T1. unfold sm_trace. f_equal.
  destruct (g_dbl_P3 _ _ R1) as (d1 & F1 & G1). rewrite (fst_lbind _ _ d1) by exact F1.
  destruct (to_P2_P1 _ _ G1) as (h1 & F2 & G2). rewrite (fst_lbind _ _ h1) by exact F2.
  destruct (g_dbl_P2 _ _ G2) as (d2 & F3 & G3). rewrite (fst_lbind _ _ d2) by exact F3.
  destruct (to_P2_P1 _ _ G3) as (h2 & F4 & G4). rewrite (fst_lbind _ _ h2) by exact F4.
  destruct (g_dbl_P2 _ _ G4) as (d3 & F5 & G5). rewrite (fst_lbind _ _ d3) by exact F5.
  destruct (to_P2_P1 _ _ G5) as (h3 & F6 & G6). rewrite (fst_lbind _ _ h3) by exact F6.
  destruct (g_dbl_P2 _ _ G6) as (d4 & F7 & G7). rewrite (fst_lbind _ _ d4) by exact F7.
  destruct (to_P3_P1 _ _ G7) as (h4 & F8 & G8). rewrite (fst_lbind _ _ h4) by exact F8.
  unfold l_dbl, l_to_cs, say. cbn [fst].
  rewrite (proj1 R1), (proj1 G1), (proj1 G2), (proj1 G3), (proj1 G4), (proj1 G5), (proj1 G6), (proj1 G7).
  unfold mid_trace. cbn [app]. do 12 f_equal.
  apply (loop_trace g rows P e Hs HT evens h4 _ G8).
  intros i Hi. apply in_map_iff in Hi as (k & <- & Hk). apply in_seq in Hk. apply K. lia.
Qed.

(** ** Reading the scalar *)
Definition complete (t : list event) : Prop := forall r, cmov_args (t ++ r) = cmov_args t ++ cmov_args r.
Lemma complete_app s t : complete s -> complete t -> complete (s ++ t).
Proof. intros S T r. rewrite <- app_assoc, S, T, S, app_assoc. reflexivity. Qed.
Definition quiet_event (e : event) : bool := match e with Cond InCmov _ => false | _ => true end.
Lemma quiet_args t : forallb quiet_event t = true -> complete t /\ cmov_args t = [].
Proof.
  induction t as [|e t IH]; intros Q; [split; [intros r; reflexivity|reflexivity]|]. cbn [forallb] in Q. apply andb_true_iff in Q.
  destruct Q as (Q1 & Q2). destruct (IH Q2) as (C & N). split.
  - intros r. specialize (C r). destruct e as [[|] c|c|n|p]; try discriminate Q1; cbn [app cmov_args]; exact C.
  - destruct e as [[|] c|c|n|p]; try discriminate Q1; cbn [cmov_args]; exact N.
Qed.
Lemma cev_args c : complete (cev c) /\ cmov_args (cev c) = [c].
Proof. destruct c; split; try reflexivity; intros r; reflexivity. Qed.
Lemma flat_args {A} (f : A -> list event) (g : A -> list bool) l : (forall x, complete (f x) /\ cmov_args (f x) = g x) ->
  complete (flat_map f l) /\ cmov_args (flat_map f l) = flat_map g l.
Proof.
  intros K. induction l as [|x l (C & N)]; [split; [intros r; reflexivity|reflexivity]|]. cbn [flat_map]. destruct (K x) as (K1 & K2). split.
  - apply complete_app; assumption.
  - rewrite K1, K2, N. reflexivity.
Qed.
Definition bits (d : Z) : list bool := map (fun j => Z.abs d =? Z.of_nat j) (seq 1 8) ++ [d <? 0].
Lemma step_args pos d : complete (step_trace pos d) /\ cmov_args (step_trace pos d) = bits d.
Proof.
  unfold step_trace, sel_trace.
  assert (A : complete (flat_map (fun j => cev (Z.abs d =? Z.of_nat j) ++ oo) (seq 1 8)) /\
     cmov_args (flat_map (fun j => cev (Z.abs d =? Z.of_nat j) ++ oo) (seq 1 8)) = flat_map (fun j => [Z.abs d =? Z.of_nat j]) (seq 1 8)).
  { apply flat_args. intros j. destruct (cev_args (Z.abs d =? Z.of_nat j)) as (C & N). destruct (quiet_args oo eq_refl) as (C' & N').
    split; [apply complete_app; assumption|]. rewrite C, N, N'. reflexivity. }
  destruct A as (A1 & A2). destruct (cev_args (d <? 0)) as (B1 & B2).
  destruct (quiet_args [Row pos] eq_refl) as (C1 & C2).
  destruct (quiet_args [Cond Elsewhere false; Switch P3; Switch PRECOMPUTED; Cond Elsewhere false; Switch P1xP1; Switch P3] eq_refl) as (D1 & D2).
  set (tail := [Cond Elsewhere false; Switch P3; Switch PRECOMPUTED; Cond Elsewhere false; Switch P1xP1; Switch P3]) in *.
  set (mid := flat_map (fun j => cev (Z.abs d =? Z.of_nat j) ++ oo) (seq 1 8)) in *.
  change (Row pos :: mid ++ cev (d <? 0)) with ([Row pos] ++ mid ++ cev (d <? 0)).
  assert (X : complete (mid ++ cev (d <? 0))) by (apply complete_app; assumption).
  split; [apply complete_app; [apply complete_app; assumption|assumption]|].
  rewrite (complete_app _ _ C1 X), C1, C2, A1, A2, B2, D2. rewrite app_nil_r. reflexivity.
Qed.
Lemma sm_args e : complete (sm_trace e) /\ cmov_args (sm_trace e) = flat_map (fun i => bits (nth i e 0)) (odds ++ evens).
Proof.
  unfold sm_trace.
  destruct (flat_args (fun i => step_trace (i / 2) (nth i e 0)) (fun i => bits (nth i e 0)) odds (fun i => step_args _ _)) as (A1 & A2).
  destruct (flat_args (fun i => step_trace (i / 2) (nth i e 0)) (fun i => bits (nth i e 0)) evens (fun i => step_args _ _)) as (B1 & B2).
  destruct (quiet_args mid_trace eq_refl) as (C1 & C2).
  split; [apply complete_app; [exact A1|apply complete_app; assumption]|].
  rewrite A1, A2, C1, C2, B2, flat_map_app. reflexivity.
Qed.
Lemma chunk {A} (f : A -> list bool) l : (forall x, length (f x) = 9%nat) -> forall n x, nth_error l n = Some x ->
  firstn 9 (skipn (9 * n) (flat_map f l)) = f x.
Proof.
  intros K. induction l as [|y l IH]; intros n x N; [destruct n; discriminate N|].
  cbn [flat_map]. destruct n as [|n].
  - injection N as ->. rewrite Nat.mul_0_r, skipn_O, firstn_app, K, Nat.sub_diag, firstn_O, app_nil_r. apply firstn_all2. rewrite K. lia.
  - replace (9 * S n)%nat with (9 + 9 * n)%nat by lia. rewrite skipn_app, K. rewrite skipn_all2 by (rewrite K; lia).
    replace (9 + 9 * n - 9)%nat with (9 * n)%nat by lia. apply IH. exact N.
Qed.
Lemma digit_bits d : -8 <= d <= 8 -> digit (bits d) = d.
Proof.
  intros Hd. assert (X : forallb (fun k => digit (bits (Z.of_nat k - 8)) =? Z.of_nat k - 8) (seq 0 17) = true) by (vm_compute; reflexivity).
  rewrite forallb_forall in X. specialize (X (Z.to_nat (d + 8))). replace (Z.of_nat (Z.to_nat (d + 8)) - 8) with d in X by lia.
  apply Z.eqb_eq, X. apply in_seq. lia.
Qed.
Lemma fold_dsum f is : fold_right Z.add 0 (map f is) = dsum f is.
Proof. induction is as [|i is IH]; [reflexivity|]. cbn [map fold_right dsum]. rewrite IH. reflexivity. Qed.
Lemma read_scalar e : length e = 64%nat -> (forall i, (i < 64)%nat -> -8 <= nth i e 0 <= 8) ->
  forall t, cmov_args t = flat_map (fun i => bits (nth i e 0)) (odds ++ evens) -> scalar_in t = dv 16 e.
Proof.
  intros Le K t T. unfold scalar_in. rewrite T, fold_dsum, (dv_pairs 32 e Le). apply dsum_ext. intros k Hk. apply in_seq in Hk.
  assert (D : forall n i, nth_error (odds ++ evens) n = Some i -> (i < 64)%nat ->
     digit_at (flat_map (fun i => bits (nth i e 0)) (odds ++ evens)) n = nth i e 0).
  { intros n i N I. unfold digit_at. rewrite (chunk (fun i => bits (nth i e 0)) (odds ++ evens)) with (x := i); [|intros; reflexivity|exact N].
    apply digit_bits. apply K. exact I. }
  assert (S : forall k, (k < 32)%nat -> nth_error (seq 0 32) k = Some k).
  { intros j J. rewrite (nth_error_nth' _ 0%nat) by (rewrite seq_length; exact J). rewrite seq_nth by exact J. reflexivity. }
  rewrite (D k (2 * k + 1)%nat), (D (32 + k)%nat (2 * k)%nat).
  - ring.
  - rewrite nth_error_app2 by (unfold odds; rewrite map_length, seq_length; lia).
    unfold odds at 1. rewrite map_length, seq_length. replace (32 + k - 32)%nat with k by lia. unfold evens. apply (map_nth_error (fun k => (2 * k)%nat)). apply S. lia.
  - lia.
  - rewrite nth_error_app1 by (unfold odds; rewrite map_length, seq_length; lia). unfold odds. apply (map_nth_error (fun k => (2 * k + 1)%nat)). apply S. lia.
  - lia.
Qed.
Lemma elsewhere_app s t : elsewhere (s ++ t) = elsewhere s ++ elsewhere t.
Proof. apply filter_app. Qed.
Lemma elsewhere_flat {A} (f : A -> list event) g l : (forall x, elsewhere (f x) = g x) -> elsewhere (flat_map f l) = flat_map g l.
Proof. intros K. induction l as [|x l IH]; [reflexivity|]. cbn [flat_map]. rewrite elsewhere_app, K, IH. reflexivity. Qed.
Definition step_elsewhere (pos : nat) : list event :=
  Row pos :: flat_map (fun _ => oo) (seq 1 8) ++ [Cond Elsewhere false; Switch P3; Switch PRECOMPUTED; Cond Elsewhere false; Switch P1xP1; Switch P3].
Lemma elsewhere_step pos d : elsewhere (step_trace pos d) = step_elsewhere pos.
Proof.
  unfold step_trace, sel_trace, step_elsewhere. rewrite elsewhere_app.
  change (elsewhere (Row pos :: flat_map (fun j => cev (Z.abs d =? Z.of_nat j) ++ oo) (seq 1 8) ++ cev (d <? 0)))
    with (Row pos :: elsewhere (flat_map (fun j => cev (Z.abs d =? Z.of_nat j) ++ oo) (seq 1 8) ++ cev (d <? 0))).
  rewrite elsewhere_app, (elsewhere_flat _ (fun _ => oo)).
  - replace (elsewhere (cev (d <? 0))) with (@nil event) by (destruct (d <? 0); reflexivity). rewrite app_nil_r. reflexivity.
  - intros j. destruct (Z.abs d =? Z.of_nat j); reflexivity.
Qed.
Definition sm_elsewhere : list event :=
  flat_map (fun i => step_elsewhere (i / 2)) odds ++ mid_trace ++ flat_map (fun i => step_elsewhere (i / 2)) evens.
Lemma elsewhere_sm e : elsewhere (sm_trace e) = sm_elsewhere.
Proof.
  unfold sm_trace, sm_elsewhere. rewrite !elsewhere_app.
  rewrite !(elsewhere_flat (fun i => step_trace (i / 2) (nth i e 0)) (fun i => step_elsewhere (i / 2))) by (intros; apply elsewhere_step).
  reflexivity.
Qed.
(** the whole: any table, any scalar *)
Theorem scalar_trace g rows P a : single g = Some rows -> single_table rows P -> wf_bytes a -> (32 <= length a)%nat ->
  complete (fst (l_scalarMultiply g a)) /\ elsewhere (fst (l_scalarMultiply g a)) = sm_elsewhere /\
  (le_val (firstn 32 a) < 2 ^ 255 -> forall t, cmov_args t = cmov_args (fst (l_scalarMultiply g a)) -> scalar_in t = le_val (firstn 32 a)).
Proof.
  intros Hs HT W L. destruct (to_radix16_ok a W L) as (e & E & Le & De & D1 & D2 & D3).
  rewrite (scalarMultiply_trace g rows P a e Hs HT W L E). destruct (sm_args e) as (C & N).
  split; [exact C|]. split; [apply elsewhere_sm|]. intros V t T. specialize (D3 V). rewrite <- De. apply read_scalar.
  - exact Le.
  - intros i Hi. destruct (Nat.eq_dec i 63) as [->|]; [lia|]. specialize (D1 i ltac:(lia)). lia.
  - rewrite T, N. reflexivity.
Qed.
