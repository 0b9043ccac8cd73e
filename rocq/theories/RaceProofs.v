(** Goroutines that call the methods of one group element: the stages of the two precomputations and the invariant of all
    histories. *)
From Coq Require Import List ZArith Lia Bool.
From Verif Require Import GoBase FieldModel GroupModel Fp Curve GroupSpec GroupProofs ScalarMul TextModel TextSpec PropTextLemmas RecoverModel PropRecoverLemmas RaceModel RaceSpec.
Import ListNotations.
Open Scope Z_scope.

Lemma nth_set_nth {A} (l : list A) : forall n a k x, nth_error l n = Some x ->
  nth_error (set_nth l n a) k = if Nat.eqb k n then Some a else nth_error l k.
Proof.
  induction l as [|y l IH]; intros [|n] a [|k] x H; cbn [nth_error set_nth Nat.eqb] in *; try reflexivity; try discriminate H.
  now apply IH with x.
Qed.
Lemma put_same {A} (f : nat -> A) n a : put f n a n = a.
Proof. unfold put. now rewrite Nat.eqb_refl. Qed.
Lemma put_other {A} (f : nat -> A) n a k : k <> n -> put f n a k = f k.
Proof. intros H. unfold put. now rewrite (proj2 (Nat.eqb_neq k n) H). Qed.

Section Race.
Variable c : gcore.
Variable P : point.
Hypothesis Hc : repc P3 c P.

(** the elements the loops go through *)
Fixpoint Bs (i : nat) : gcore := match i with O => c | S k => match dbl_n 8 (Bs k) with Ok b => b | _ => c end end.
Lemma Bs_ok i : repc P3 (Bs i) (zmul (256 ^ Z.of_nat i) P) /\ dbl_n 8 (Bs i) = Ok (Bs (S i)).
Proof.
  induction i as [|i [IH1 IH2]].
  - split; [change (256 ^ Z.of_nat 0) with 1; rewrite zmul_1; exact Hc|].
    destruct (dbl_n_ok 8 _ _ Hc) as (r & E & _). change (Bs 0) with c. change (Bs 1) with (match dbl_n 8 c with Ok b => b | _ => c end).
    now rewrite E.
  - assert (X : repc P3 (Bs (S i)) (zmul (256 ^ Z.of_nat (S i)) P)).
    { destruct (dbl_n_ok 8 _ _ IH1) as (r & E & R). rewrite IH2 in E. injection E as <-.
      change (2 ^ Z.of_nat 8) with 256 in R. rewrite <- zmul_mul in R.
      replace (256 ^ Z.of_nat (S i)) with (256 * 256 ^ Z.of_nat i) by (rewrite Nat2Z.inj_succ, Z.pow_succ_r by lia; ring). exact R. }
    split; [exact X|]. destruct (dbl_n_ok 8 _ _ X) as (r & E & _). rewrite E.
    change (Bs (S (S i))) with (match dbl_n 8 (Bs (S i)) with Ok b => b | _ => c end). now rewrite E.
Qed.
Fixpoint Cs (i j : nat) : gcore := match j with O => Bs i | S k => match add_P3 (Cs i k) (Bs i) with Ok b => b | _ => c end end.
Lemma Cs_ok i j : repc P3 (Cs i j) (zmul ((Z.of_nat j + 1) * 256 ^ Z.of_nat i) P) /\ add_P3 (Cs i j) (Bs i) = Ok (Cs i (S j)).
Proof.
  destruct (Bs_ok i) as [HB _]. induction j as [|j [IH1 IH2]].
  - assert (X : repc P3 (Cs i 0) (zmul ((Z.of_nat 0 + 1) * 256 ^ Z.of_nat i) P)).
    { change ((Z.of_nat 0 + 1) * 256 ^ Z.of_nat i) with (1 * 256 ^ Z.of_nat i). rewrite Z.mul_1_l. exact HB. }
    split; [exact X|]. destruct (add_P3_ok _ _ _ _ X HB) as (r & E & _).
    change (Cs i 1) with (match add_P3 (Cs i 0) (Bs i) with Ok b => b | _ => c end). now rewrite E.
  - assert (X : repc P3 (Cs i (S j)) (zmul ((Z.of_nat (S j) + 1) * 256 ^ Z.of_nat i) P)).
    { destruct (add_P3_ok _ _ _ _ IH1 HB) as (r & E & R). rewrite IH2 in E. injection E as <-.
      rewrite <- zmul_add in R. replace ((Z.of_nat (S j) + 1) * 256 ^ Z.of_nat i) with ((Z.of_nat j + 1) * 256 ^ Z.of_nat i + 256 ^ Z.of_nat i) by lia.
      exact R. }
    split; [exact X|]. destruct (add_P3_ok _ _ _ _ X HB) as (r & E & _).
    change (Cs i (S (S j))) with (match add_P3 (Cs i (S j)) (Bs i) with Ok b => b | _ => c end). now rewrite E.
Qed.
Definition dnext (b : gcore) : res gcore := do s <- add_P3 c b; add_P3 c s.
Fixpoint Ds (j : nat) : gcore := match j with O => c | S k => match dnext (Ds k) with Ok b => b | _ => c end end.
Lemma dnext_ok b Q : repc P3 b Q -> exists r, dnext b = Ok r /\ repc P3 r (padd P (padd P Q)).
Proof.
  intros H. unfold dnext. destruct (add_P3_ok _ _ _ _ Hc H) as (s & -> & Hs). cbn [bind].
  destruct (add_P3_ok _ _ _ _ Hc Hs) as (r & -> & Hr). eauto.
Qed.
Lemma Ds_ok j : repc P3 (Ds j) (zmul (2 * Z.of_nat j + 1) P) /\ dnext (Ds j) = Ok (Ds (S j)).
Proof.
  induction j as [|j [IH1 IH2]].
  - assert (X : repc P3 (Ds 0) (zmul (2 * Z.of_nat 0 + 1) P)) by (change (2 * Z.of_nat 0 + 1) with 1; rewrite zmul_1; exact Hc).
    split; [exact X|]. destruct (dnext_ok _ _ X) as (r & E & _).
    change (Ds 1) with (match dnext (Ds 0) with Ok b => b | _ => c end). now rewrite E.
  - assert (X : repc P3 (Ds (S j)) (zmul (2 * Z.of_nat (S j) + 1) P)).
    { destruct (dnext_ok _ _ IH1) as (r & E & R). rewrite IH2 in E. injection E as <-.
      replace (2 * Z.of_nat (S j) + 1) with (1 + (1 + (2 * Z.of_nat j + 1))) by lia. rewrite !zmul_add, !zmul_1.
      rewrite zmul_add, zmul_1 in R. exact R. }
    split; [exact X|]. destruct (dnext_ok _ _ X) as (r & E & _).
    change (Ds (S (S j))) with (match dnext (Ds (S j)) with Ok b => b | _ => c end). now rewrite E.
Qed.

(** ** Stages *)
Inductive cst : Set := Q0 | Q1 (s : option nat) | Q2 (s d : option nat) | Q3 (d : option nat).
Inductive st : Set :=
| A0 | A1 | Cp (q : cst) | An | R0 | S1 (i : nat) | S2 (t i : nat) | S3 (i : nat) | S4 (t i : nat)
| S5 (i j : nat) | S6 (t i j : nat) | S7 (r i j : nat)
| D0 | D1 | Cd (q : cst) | DR | D5 (j : nat) | D7 (t j : nat)
| E (o : outcome).
Definition q_code (q : cst) (k : act) : act :=
  match q with
  | Q0 => p_copy k
  | Q1 s => LoadD (fun d => LoadS (fun s' => match s, s' with None, Some _ => Fin Panicked
      | _, _ => LoadD (fun d' => match d, d' with None, Some _ => Fin Panicked | _, _ => k end) end))
  | Q2 s d => LoadS (fun s' => match s, s' with None, Some _ => Fin Panicked
      | _, _ => LoadD (fun d' => match d, d' with None, Some _ => Fin Panicked | _, _ => k end) end)
  | Q3 d => LoadD (fun d' => match d, d' with None, Some _ => Fin Panicked | _, _ => k end)
  end.
Definition nx (i : nat) : act := match dbl_n 8 (Bs i) with Ok b => p_rows (31 - i) (S i) b | _ => Fin Panicked end.
Definition after_a : act := LoadS (fun f => match f with None => Fin Returned | Some _ => p_rows 32 0 c end).
Definition after_d : act := LoadD (fun f => match f with None => Fin Returned | Some _ => p_dcols 8 0 c c end).
Definition body4 (t i : nat) : act := LoadR t i (fun f => match f with None => nx i | Some _ => p_cols 8 i 0 (Bs i) (Bs i) (nx i) end).
Definition body3 (i : nat) : act := LoadS (fun f => match f with None => Fin Panicked | Some t => body4 t i end).
Definition body7 (r i j : nat) : act := StoreE r j (prec_entry (Cs i j))
  match add_P3 (Cs i j) (Bs i) with Ok b => p_cols (7 - j) i (S j) (Bs i) b (nx i) | _ => Fin Panicked end.
Definition body6 (t i j : nat) : act := LoadR t i (fun f => match f with None => Fin Panicked | Some r => body7 r i j end).
Definition dbody7 (t j : nat) : act := StoreDE t j (prec_entry (Ds j))
  match dnext (Ds j) with Ok b => p_dcols (7 - j) (S j) c b | _ => Fin Panicked end.
Definition code (g : st) : act :=
  match g with
  | A0 => p_single c
  | A1 => LoadS (fun f => match f with Some _ => Fin Returned | None => p_copy (NewS after_a) end)
  | Cp q => q_code q (NewS after_a)
  | An => NewS after_a
  | R0 => after_a
  | S1 i => p_rows (32 - i) i (Bs i)
  | S2 t i => NewR t i (body3 i)
  | S3 i => body3 i
  | S4 t i => body4 t i
  | S5 i j => p_cols (8 - j) i j (Bs i) (Cs i j) (nx i)
  | S6 t i j => body6 t i j
  | S7 r i j => body7 r i j
  | D0 => p_double c
  | D1 => NewD (p_copy after_d)
  | Cd q => q_code q after_d
  | DR => after_d
  | D5 j => p_dcols (8 - j) j c (Ds j)
  | D7 t j => dbody7 t j
  | E o => Fin o
  end.
Definition valid (g : st) : Prop :=
  match g with
  | S1 i | S2 _ i | S3 i | S4 _ i => (i < 32)%nat
  | S5 i j | S6 _ i j | S7 _ i j => (i < 32)%nat /\ (j < 8)%nat
  | D5 j | D7 _ j => (j < 8)%nat
  | _ => True
  end.
Definition nxs (i : nat) : st := if Nat.ltb (S i) 32 then S1 (S i) else E Returned.
Definition q_step (m : mem) (q : cst) (f : cst -> st) (k : st) : st :=
  match q with
  | Q0 => f (Q1 (m_single m))
  | Q1 s => f (Q2 s (m_double m))
  | Q2 s d => match s, m_single m with None, Some _ => E Panicked | _, _ => f (Q3 d) end
  | Q3 d => match d, m_double m with None, Some _ => E Panicked | _, _ => k end
  end.
Definition sstep (m : mem) (g : st) : st :=
  match g with
  | A0 => match m_single m with Some _ => E Returned | None => A1 end
  | A1 => match m_single m with Some _ => E Returned | None => Cp Q0 end
  | Cp q => q_step m q Cp An
  | An => R0
  | R0 => match m_single m with None => E Returned | Some _ => S1 0 end
  | S1 i => match m_single m with None => E Panicked | Some t => S2 t i end
  | S2 t i => S3 i
  | S3 i => match m_single m with None => E Panicked | Some t => S4 t i end
  | S4 t i => match tab m t i with None => nxs i | Some _ => S5 i 0 end
  | S5 i j => match m_single m with None => E Panicked | Some t => S6 t i j end
  | S6 t i j => match tab m t i with None => E Panicked | Some r => S7 r i j end
  | S7 r i j => if Nat.ltb (S j) 8 then S5 i (S j) else nxs i
  | D0 => match m_double m with Some _ => E Returned | None => D1 end
  | D1 => Cd Q0
  | Cd q => q_step m q Cd DR
  | DR => match m_double m with None => E Returned | Some _ => D5 0 end
  | D5 j => match m_double m with None => E Panicked | Some t => D7 t j end
  | D7 t j => if Nat.ltb (S j) 8 then D5 (S j) else E Returned
  | E o => E o
  end.
Definition new_s (m : mem) : mem :=
  Mem (Some (ntab m)) (m_double m) (put (tab m) (ntab m) (fun _ => None)) (S (ntab m)) (row m) (nrow m) (dtab m) (ndtab m).
Definition new_d (m : mem) : mem :=
  Mem (m_single m) (Some (ndtab m)) (tab m) (ntab m) (row m) (nrow m) (put (dtab m) (ndtab m) (fun _ => None)) (S (ndtab m)).
Definition new_r (m : mem) (t i : nat) : mem :=
  Mem (m_single m) (m_double m) (put (tab m) t (put (tab m t) i (Some (nrow m)))) (ntab m)
      (put (row m) (nrow m) (fun _ => None)) (S (nrow m)) (dtab m) (ndtab m).
Definition set_e (m : mem) (r j : nat) (e : gcore) : mem :=
  Mem (m_single m) (m_double m) (tab m) (ntab m) (put (row m) r (put (row m r) j (Some e))) (nrow m) (dtab m) (ndtab m).
Definition set_de (m : mem) (t j : nat) (e : gcore) : mem :=
  Mem (m_single m) (m_double m) (tab m) (ntab m) (row m) (nrow m) (put (dtab m) t (put (dtab m t) j (Some e))) (ndtab m).
Definition mstep (m : mem) (g : st) : mem :=
  match g with
  | An => new_s m
  | S2 t i => new_r m t i
  | S7 r i j => set_e m r j (prec_entry (Cs i j))
  | D1 => new_d m
  | D7 t j => set_de m t j (prec_entry (Ds j))
  | _ => m
  end.
Lemma rows_S i : (i < 32)%nat -> p_rows (32 - i) i (Bs i) = LoadS (fun f => match f with None => Fin Panicked | Some t => NewR t i (body3 i) end).
Proof. intros H. replace (32 - i)%nat with (S (31 - i)) by lia. reflexivity. Qed.
Lemma nx_code i : (i < 32)%nat -> nx i = code (nxs i).
Proof.
  intros H. unfold nx, nxs. rewrite (proj2 (Bs_ok i)). destruct (Nat.ltb_spec (S i) 32).
  - cbn [code]. replace (32 - S i)%nat with (31 - i)%nat by lia. reflexivity.
  - replace (31 - i)%nat with 0%nat by lia. reflexivity.
Qed.
Lemma cols_S i j : (j < 8)%nat -> p_cols (8 - j) i j (Bs i) (Cs i j) (nx i) = LoadS (fun f => match f with None => Fin Panicked | Some t => body6 t i j end).
Proof. intros H. replace (8 - j)%nat with (S (7 - j)) by lia. reflexivity. Qed.
Lemma dcols_S j : (j < 8)%nat -> p_dcols (8 - j) j c (Ds j) = LoadD (fun f => match f with None => Fin Panicked | Some t => dbody7 t j end).
Proof. intros H. replace (8 - j)%nat with (S (7 - j)) by lia. reflexivity. Qed.
Lemma sim m g : valid g -> act_step m (code g) = (mstep m g, code (sstep m g)).
Proof.
  intros V. destruct g as [| |q| | |i|t i|i|t i|i j|t i j|r i j| | |q| |j|t j|o]; cbn [valid] in V.
  - change (code A0) with (p_single c). unfold p_single. cbn [act_step mstep sstep]. destruct (m_single m); reflexivity.
  - cbn [code act_step mstep sstep]. destruct (m_single m); reflexivity.
  - destruct q; cbn [code q_code act_step mstep sstep q_step]; try reflexivity.
    + destruct s, (m_single m); reflexivity.
    + destruct d, (m_double m); reflexivity.
  - reflexivity.
  - cbn [code]. unfold after_a. cbn [act_step mstep sstep]. destruct (m_single m); [|reflexivity].
    cbn [code]. change (32 - 0)%nat with 32%nat. change (Bs 0) with c. apply f_equal. generalize 32%nat as x. reflexivity.
  - cbn [code]. rewrite rows_S by exact V. cbn [act_step mstep sstep]. destruct (m_single m); reflexivity.
  - reflexivity.
  - cbn [code]. unfold body3. cbn [act_step mstep sstep]. destruct (m_single m); reflexivity.
  - cbn [code]. unfold body4. cbn [act_step mstep sstep]. destruct (tab m t i); [|now rewrite nx_code].
    cbn [code]. change (8 - 0)%nat with 8%nat. change (Cs i 0) with (Bs i). apply f_equal. generalize 8%nat as x. reflexivity.
  - destruct V as [Vi Vj]. cbn [code]. rewrite cols_S by exact Vj. cbn [act_step mstep sstep]. destruct (m_single m); reflexivity.
  - destruct V as [Vi Vj]. cbn [code]. unfold body6. cbn [act_step mstep sstep]. destruct (tab m t i); reflexivity.
  - destruct V as [Vi Vj]. cbn [code]. unfold body7. rewrite (proj2 (Cs_ok i j)). cbn [act_step mstep sstep]. unfold set_e. apply f_equal.
    destruct (Nat.ltb_spec (S j) 8).
    + cbn [code]. replace (8 - S j)%nat with (7 - j)%nat by lia. reflexivity.
    + replace (7 - j)%nat with 0%nat by lia. cbn [p_cols]. now apply nx_code.
  - change (code D0) with (p_double c). unfold p_double. cbn [act_step mstep sstep]. destruct (m_double m); reflexivity.
  - reflexivity.
  - destruct q; cbn [code q_code act_step mstep sstep q_step]; try reflexivity.
    + destruct s, (m_single m); reflexivity.
    + destruct d, (m_double m); reflexivity.
  - cbn [code]. unfold after_d. cbn [act_step mstep sstep]. destruct (m_double m); [|reflexivity].
    cbn [code]. change (8 - 0)%nat with 8%nat. change (Ds 0) with c. apply f_equal. generalize 8%nat as x. reflexivity.
  - cbn [code]. rewrite dcols_S by exact V. cbn [act_step mstep sstep]. destruct (m_double m); reflexivity.
  - cbn [code]. unfold dbody7. rewrite (proj2 (Ds_ok j)). cbn [act_step mstep sstep]. unfold set_de. apply f_equal.
    destruct (Nat.ltb_spec (S j) 8).
    + cbn [code]. replace (8 - S j)%nat with (7 - j)%nat by lia. reflexivity.
    + replace (7 - j)%nat with 0%nat by lia. reflexivity.
  - reflexivity.
Qed.

Lemma valid_nxs i : valid (nxs i).
Proof. unfold nxs. destruct (Nat.ltb_spec (S i) 32); cbn [valid]; [assumption|exact I]. Qed.
Lemma valid_step m g : valid g -> valid (sstep m g).
Proof.
  intros V. destruct g as [| |q| | |i|t i|i|t i|i j|t i j|r i j| | |q| |j|t j|o]; cbn [valid] in V; cbn [sstep].
  all: try (destruct q; cbn [q_step]).
  all: repeat match goal with
    | |- valid (match ?x with _ => _ end) => destruct x eqn:?
    | |- valid (nxs _) => apply valid_nxs
    end; cbn [valid]; try (apply Nat.ltb_lt in Heqb); try split; try exact I; try tauto; try lia.
Qed.
Definition single_st (g : st) : Prop := match g with D0 | D1 | Cd _ | DR | D5 _ | D7 _ _ => False | _ => True end.
Definition double_st (g : st) : Prop := match g with D0 | D1 | Cd _ | DR | D5 _ | D7 _ _ | E _ => True | _ => False end.
Lemma single_step m g : single_st g -> single_st (sstep m g).
Proof.
  intros V. destruct g as [| |q| | |i|t i|i|t i|i j|t i j|r i j| | |q| |j|t j|o]; cbn [single_st] in V; try tauto; cbn [sstep].
  all: try (destruct q; cbn [q_step]).
  all: unfold nxs; repeat match goal with |- single_st (match ?x with _ => _ end) => destruct x end; exact I.
Qed.
Lemma double_step m g : double_st g -> double_st (sstep m g).
Proof.
  intros V. destruct g as [| |q| | |i|t i|i|t i|i j|t i j|r i j| | |q| |j|t j|o]; cbn [double_st] in V; try tauto; cbn [sstep].
  all: try (destruct q; cbn [q_step]).
  all: repeat match goal with |- double_st (match ?x with _ => _ end) => destruct x end; exact I.
Qed.
Definition early (g : st) : Prop := match g with A0 | A1 | Cp _ | An | E Panicked => True | _ => False end.
Definition dearly (g : st) : Prop := match g with D0 | D1 => True | _ => False end.
Definition held (n : nat) (kind : nat -> nat) (g : st) : Prop := match g with S7 r i _ => (r < n)%nat /\ kind r = i | _ => True end.
Fixpoint reader (a : act) : Prop :=
  match a with
  | Fin _ => True
  | LoadS k | LoadD k | LoadR _ _ k => forall f, reader (k f)
  | LoadE _ _ k => forall f, reader (k f)
  | _ => False
  end.
Lemma reader_step m a : reader a -> exists a', act_step m a = (m, a') /\ reader a'.
Proof. destruct a; cbn [reader act_step]; intros H; try (exfalso; exact H); eexists; (split; [reflexivity|]); auto. Qed.

(** who will still fill a row that is nil, or an entry *)
Definition pend (m : mem) (t i : nat) (g : st) : Prop :=
  match g with
  | R0 => True
  | S1 i0 => (i0 <= i)%nat
  | S2 t0 i0 => (i0 <= i)%nat /\ t0 = t
  | S3 i0 | S5 i0 _ | S7 _ i0 _ => (i0 < i)%nat /\ tab m t i0 <> None
  | S4 t0 i0 | S6 t0 i0 _ => (i0 < i)%nat /\ tab m t i0 <> None /\ t0 = t
  | _ => False
  end.
Definition resp (t i r J : nat) (g : st) : Prop :=
  match g with
  | S3 i0 => i0 = i /\ J = 0%nat
  | S4 t0 i0 => i0 = i /\ J = 0%nat /\ t0 = t
  | S5 i0 j => i0 = i /\ j = J
  | S6 t0 i0 j => i0 = i /\ j = J /\ t0 = t
  | S7 r0 i0 j => i0 = i /\ j = J /\ r0 = r
  | _ => False
  end.
Definition dresp (t J : nat) (g : st) : Prop :=
  match g with
  | Cd _ | DR => J = 0%nat
  | D5 j => j = J
  | D7 t0 j => j = J /\ t0 = t
  | _ => False
  end.
Definition cov (m : mem) (iS : nat -> Prop) (gs : nat -> st) (t i : nat) : Prop :=
  match tab m t i with
  | None => exists n, iS n /\ pend m t i (gs n)
  | Some r => exists J, (J <= 8)%nat /\ (forall j, (j < J)%nat -> row m r j <> None) /\
                (J = 8%nat \/ exists n, iS n /\ resp t i r J (gs n))
  end.
Definition dcov (m : mem) (iD : nat -> Prop) (gs : nat -> st) (t : nat) : Prop :=
  exists J, (J <= 8)%nat /\ (forall j, (j < J)%nat -> dtab m t j <> None) /\ (J = 8%nat \/ exists n, iD n /\ dresp t J (gs n)).

Lemma pend_mono m m' t i g : (forall i, tab m t i <> None -> tab m' t i <> None) -> pend m t i g -> pend m' t i g.
Proof. intros H. destruct g as [| |q| | |i0|t0 i0|i0|t0 i0|i0 j0|t0 i0 j0|r0 i0 j0| | |q| |j0|t0 j0|o]; cbn [pend]; try tauto; specialize (H i0); tauto. Qed.
Lemma cov_load m iS gs n g' t i : m_single m = Some t -> (i < 32)%nat ->
  (pend m t i (gs n) -> tab m t i = None -> pend m t i g') ->
  (forall r J, tab m t i = Some r -> (J < 8)%nat -> resp t i r J (gs n) -> resp t i r J g') ->
  cov m iS gs t i -> cov m iS (put gs n g') t i.
Proof.
  intros Hf Hi H1 H2. unfold cov. destruct (tab m t i) as [r|] eqn:Et.
  - intros (J & L & F & W). exists J. split; [exact L|]. split; [exact F|]. destruct W as [W|(k & Ik & W)]; [left; exact W|].
    destruct (Nat.eq_dec J 8) as [->|]; [left; reflexivity|]. right. exists k. split; [exact Ik|].
    destruct (Nat.eq_dec k n) as [->|N]; [rewrite put_same; apply H2; [reflexivity|lia|exact W]|rewrite put_other by exact N; exact W].
  - intros (k & Ik & W). exists k. split; [exact Ik|].
    destruct (Nat.eq_dec k n) as [->|N]; [rewrite put_same; auto|rewrite put_other by exact N; exact W].
Qed.
Lemma cov_step m (iS : nat -> Prop) gs n kind : iS n -> valid (gs n) -> held (nrow m) kind (gs n) ->
  (forall t i r, tab m t i = Some r -> (r < nrow m)%nat) ->
  (forall t, m_single m = Some t -> forall i, (i < 32)%nat -> cov m iS gs t i) ->
  forall t, m_single (mstep m (gs n)) = Some t -> forall i, (i < 32)%nat -> cov (mstep m (gs n)) iS (put gs n (sstep m (gs n))) t i.
Proof.
  intros In V Hd Hr H t Ht i Hi.
  destruct (gs n) as [| |q| | |i0|t0 i0|i0|t0 i0|i0 j0|t0 i0 j0|r0 i0 j0| | |q| |j0|t0 j0|o] eqn:G; cbn [mstep] in *.
  (* loads *)
  all: try (apply cov_load; [exact Ht|exact Hi|rewrite G; cbn [pend sstep]|intros r J; rewrite G; cbn [resp sstep]|exact (H t Ht i Hi)]).
  all: try tauto.
  all: try rewrite Ht.
  all: try (cbn [pend resp]; tauto).
  - (* NewS *) cbn [new_s m_single] in Ht. injection Ht as <-. unfold cov. cbn [new_s tab]. rewrite put_same. exists n.
    split; [exact In|]. rewrite put_same. exact I.
  - intros _ _. cbn [pend]. lia.
  - (* NewR *) cbn [new_r m_single] in Ht. specialize (H t Ht i Hi). unfold cov in *. cbn [new_r tab row]. cbn [sstep].
    assert (M : forall i, tab m t i <> None -> tab (new_r m t0 i0) t i <> None).
    { intros k. cbn [new_r tab]. unfold put. destruct (Nat.eqb_spec t t0) as [<-|]; [|tauto]. destruct (Nat.eqb k i0); [discriminate|tauto]. }
    destruct (Nat.eq_dec t t0) as [<-|N].
    + rewrite put_same. destruct (Nat.eq_dec i i0) as [<-|Ni].
      * rewrite put_same. exists 0%nat. split; [lia|]. split; [intros j Hj; lia|]. right. exists n. split; [exact In|].
        rewrite put_same. cbn [resp]. auto.
      * rewrite put_other by exact Ni. destruct (tab m t i) as [r|] eqn:Et.
        -- destruct H as (J & L & F & W). exists J. split; [exact L|]. rewrite put_other by (pose proof (Hr _ _ _ Et); lia).
           split; [exact F|]. destruct W as [W|(k & Ik & W)]; [left; exact W|]. right. exists k. split; [exact Ik|].
           destruct (Nat.eq_dec k n) as [->|Nk]; [rewrite G in W; cbn [resp] in W; tauto|]. now rewrite put_other.
        -- destruct H as (k & Ik & W). exists k. split; [exact Ik|].
           destruct (Nat.eq_dec k n) as [->|Nk].
           ++ rewrite put_same. rewrite G in W. cbn [pend] in *. split; [lia|]. cbn [new_r tab]. rewrite !put_same. discriminate.
           ++ rewrite put_other by exact Nk. revert W. apply pend_mono. exact M.
    + rewrite put_other by exact N. destruct (tab m t i) as [r|] eqn:Et.
      * destruct H as (J & L & F & W). exists J. split; [exact L|]. rewrite put_other by (pose proof (Hr _ _ _ Et); lia).
        split; [exact F|]. destruct W as [W|(k & Ik & W)]; [left; exact W|]. right. exists k. split; [exact Ik|].
        destruct (Nat.eq_dec k n) as [->|Nk]; [rewrite G in W; cbn [resp] in W; tauto|]. now rewrite put_other.
      * destruct H as (k & Ik & W). exists k. split; [exact Ik|].
        destruct (Nat.eq_dec k n) as [->|Nk]; [rewrite G in W; cbn [pend] in W; destruct W; congruence|].
        rewrite put_other by exact Nk. revert W. apply pend_mono. exact M.
  - intros (L & T & ->) _. destruct (tab m t i0) eqn:E0; [|congruence]. cbn [pend]. split; [exact L|congruence].
  - intros Et L (-> & -> & ->). rewrite Et. cbn [resp]. auto.
  - intros (L & T & ->) _. destruct (tab m t i0) eqn:E0; [|congruence]. cbn [pend]. split; [exact L|congruence].
  - intros Et L (-> & -> & ->). rewrite Et. cbn [resp]. auto.
  - (* StoreE *) cbn [set_e m_single] in Ht. specialize (H t Ht i Hi). unfold cov in *. cbn [set_e tab row]. cbn [sstep]. cbn [valid] in V.
    assert (M : forall r j, row m r j <> None -> put (row m) r0 (put (row m r0) j0 (Some (prec_entry (Cs i0 j0)))) r j <> None).
    { intros r j. unfold put. destruct (Nat.eqb_spec r r0) as [->|]; [|tauto]. destruct (Nat.eqb j j0); [discriminate|tauto]. }
    destruct (tab m t i) as [r|] eqn:Et.
    + destruct H as (J & L & F & W). destruct W as [W|(k & Ik & W)].
      { exists J. split; [exact L|]. split; [intros j Hj; apply M, F, Hj|left; exact W]. }
      destruct (Nat.eq_dec k n) as [->|Nk].
      * rewrite G in W. cbn [resp] in W. destruct W as (-> & -> & ->). exists (S J). split; [lia|]. split.
        -- intros j Hj. destruct (Nat.eq_dec j J) as [->|]; [rewrite !put_same; discriminate|]. apply M, F. lia.
        -- destruct (Nat.ltb_spec (S J) 8); [|left; lia]. right. exists n. split; [exact In|]. rewrite put_same. cbn [resp]. auto.
      * exists J. split; [exact L|]. split; [intros j Hj; apply M, F, Hj|]. right. exists k. split; [exact Ik|]. now rewrite put_other.
    + destruct H as (k & Ik & W). exists k. split; [exact Ik|]. destruct (Nat.eq_dec k n) as [->|Nk].
      * rewrite put_same. rewrite G in W. cbn [pend] in W. destruct W as [W1 W2].
        destruct (Nat.ltb (S j0) 8); [cbn [pend]; split; assumption|]. unfold nxs. destruct (Nat.ltb_spec (S i0) 32); [|lia]. cbn [pend]. lia.
      * rewrite put_other by exact Nk. exact W.
Qed.

Lemma dcov_step m (iD : nat -> Prop) gs n : iD n -> valid (gs n) -> double_st (gs n) -> sstep m (gs n) <> E Panicked ->
  (forall t, m_double m = Some t -> dcov m iD gs t) ->
  forall t, m_double (mstep m (gs n)) = Some t -> dcov (mstep m (gs n)) iD (put gs n (sstep m (gs n))) t.
Proof.
  intros In V Hd Np H t Ht.
  assert (K : mstep m (gs n) = m -> (forall J, (J < 8)%nat -> dresp t J (gs n) -> dresp t J (sstep m (gs n))) ->
    dcov (mstep m (gs n)) iD (put gs n (sstep m (gs n))) t).
  { intros Em K. rewrite Em in *. destruct (H t Ht) as (J & L & F & W). exists J. split; [exact L|]. split; [exact F|].
    destruct (Nat.eq_dec J 8) as [->|]; [left; reflexivity|]. destruct W as [W|(k & Ik & W)]; [left; exact W|]. right. exists k. split; [exact Ik|].
    destruct (Nat.eq_dec k n) as [->|N]; [rewrite put_same; apply K; [lia|exact W]|now rewrite put_other]. }
  destruct (gs n) as [| |q| | |i0|t0 i0|i0|t0 i0|i0 j0|t0 i0 j0|r0 i0 j0| | |q| |j0|t0 j0|o] eqn:G; cbn [double_st] in Hd; try tauto.
  - apply K; [reflexivity|]. cbn [dresp]. tauto.
  - cbn [mstep new_d m_double] in Ht. injection Ht as <-. exists 0%nat. split; [lia|]. split; [intros j Hj; lia|]. right. exists n.
    split; [exact In|]. rewrite put_same. reflexivity.
  - apply K; [reflexivity|]. cbn [dresp sstep]. intros J L ->. destruct q as [|s|s d|d]; cbn [sstep q_step] in *; try reflexivity.
    + destruct s, (m_single m); try reflexivity. congruence.
    + destruct d, (m_double m); try reflexivity. congruence.
  - apply K; [reflexivity|]. cbn [dresp sstep mstep] in *. intros J L ->. rewrite Ht. reflexivity.
  - apply K; [reflexivity|]. cbn [dresp sstep mstep] in *. intros J L ->. rewrite Ht. cbn [dresp]. auto.
  - cbn [mstep set_de m_double] in *. cbn [valid] in V. destruct (H t Ht) as (J & L & F & W). unfold dcov. cbn [dtab].
    assert (M : forall j, dtab m t j <> None -> put (dtab m) t0 (put (dtab m t0) j0 (Some (prec_entry (Ds j0)))) t j <> None).
    { intros j. unfold put. destruct (Nat.eqb_spec t t0) as [->|]; [|tauto]. destruct (Nat.eqb j j0); [discriminate|tauto]. }
    destruct W as [W|(k & Ik & W)].
    { exists J. split; [exact L|]. split; [intros j Hj; apply M, F, Hj|left; exact W]. }
    destruct (Nat.eq_dec k n) as [->|Nk].
    + rewrite G in W. cbn [dresp] in W. destruct W as (-> & ->). exists (S J). split; [lia|]. split.
      * intros j Hj. destruct (Nat.eq_dec j J) as [->|]; [cbn [set_de dtab]; rewrite !put_same; discriminate|]. apply M, F. lia.
      * destruct (Nat.ltb_spec (S J) 8) as [Q|Q]; [|left; lia]. right. exists n. split; [exact In|]. rewrite put_same. cbn [sstep].
        rewrite (proj2 (Nat.ltb_lt (S J) 8) Q). reflexivity.
    + exists J. split; [exact L|]. split; [intros j Hj; apply M, F, Hj|]. right. exists k. split; [exact Ik|]. now rewrite put_other.
  - apply K; [reflexivity|]. cbn [dresp]. tauto.
Qed.

(** ** Select while the table is being filled *)
Definition abs_of (b : Z) : Z := w64 (b - w64 (Z.land (- is_negative_ct b) b * 2)).
Definition pick (b : Z) (j : nat) : Z := let d := Z.abs (residue b) mod 256 in if (1 <=? d) && (d <=? Z.of_nat j) then d else 0.
Definition good (pos b : Z) (x : rres gcore) : Prop :=
  x = RPanic \/ x = RNil \/ exists r, x = ROk r /\ (repc PRECOMPUTED r (zmul (digit b * 256 ^ pos) P) \/ repc PRECOMPUTED r pzero).
Definition lastk (b : Z) (x : rres gcore) : act :=
  Fin (Result (rbind x (fun t => of_plain (g_cmov t (newPrecomputed (gY t) (gX t) (fe_neg (gZ t))) (is_negative_ct b))))).
Definition sel1 (pos b : Z) (t : nat) : act :=
  LoadR t (Z.to_nat pos) (fun f => match f with
    | None => lastk b (ROk zero_precomputed)
    | Some r => p_select_loop 8 0 r (abs_of b) zero_precomputed (lastk b)
    end).
Definition sel_good (n : nat) (kind : nat -> nat) (pos b : Z) (a : act) : Prop :=
  a = program c (CSelect pos b) \/
  (0 <= pos < 32 /\ exists t, a = sel1 pos b t) \/
  (0 <= pos < 32 /\ exists r j t0, a = p_select_loop (8 - j) j r (abs_of b) t0 (lastk b) /\ (j < 8)%nat /\ (r < n)%nat /\ kind r = Z.to_nat pos /\
     repc PRECOMPUTED t0 (zmul (pick b j * 256 ^ pos) P)) \/
  (exists x, a = Fin (Result x) /\ good pos b x).
Lemma sel_good_mono n n' kind kind' pos b a : (n <= n')%nat -> (forall r, (r < n)%nat -> kind' r = kind r) ->
  sel_good n kind pos b a -> sel_good n' kind' pos b a.
Proof.
  intros L K [H|[H|[(Hp & r & j & t0 & H1 & H2 & H3 & H4 & H5)|H]]]; [left; exact H|right; left; exact H| |right; right; right; exact H].
  right. right. left. split; [exact Hp|]. exists r, j, t0. split; [exact H1|]. split; [exact H2|]. split; [lia|]. rewrite K by exact H3. auto.
Qed.
Lemma last_good pos b t j : (j <= 8)%nat -> (j = 0%nat \/ j = 8%nat) -> repc PRECOMPUTED t (zmul (pick b j * 256 ^ pos) P) -> 
  exists x, lastk b (ROk t) = Fin (Result x) /\ good pos b x.
Proof.
  intros L Hj H. unfold lastk. cbn [rbind]. destruct (minus_pick _ _ b H) as (r & Er & Hr). rewrite Er. cbn [of_plain].
  eexists. split; [reflexivity|]. right. right. exists r. split; [reflexivity|].
  pose proof (residue_range b) as R. unfold pick in Hr. destruct Hj as [-> | ->].
  - right. replace ((1 <=? Z.abs (residue b) mod 256) && (Z.abs (residue b) mod 256 <=? Z.of_nat 0)) with false in Hr.
    + rewrite Z.mul_0_l, zmul_0, pneg_0 in Hr. destruct (residue b <? 0); exact Hr.
    + symmetry. apply andb_false_iff. destruct (Z.leb_spec 1 (Z.abs (residue b) mod 256)); [right; apply Z.leb_gt; lia|left; reflexivity].
  - left. match goal with H : repc _ r ?u |- repc _ r ?v => replace v with u; [exact H|] end. unfold digit.
    destruct (Z.eq_dec (residue b) (-256)) as [Q|Q]; [rewrite Q; cbn; rewrite ?zmul_0; apply pneg_0|].
    rewrite (Z.mod_small (Z.abs (residue b))) by lia.
    destruct (Z.leb_spec (Z.abs (residue b)) 8) as [S8|S8].
    + destruct (Z.leb_spec 1 (Z.abs (residue b))) as [S1|S1].
      * change (Z.of_nat 8) with 8. rewrite (proj2 (Z.leb_le _ _) S8). cbn [andb]. destruct (Z.ltb_spec (residue b) 0).
        -- rewrite <- zmul_opp. f_equal. lia.
        -- f_equal. lia.
      * cbn [andb]. replace (residue b) with 0 by lia. reflexivity.
    + change (Z.of_nat 8) with 8. replace (Z.abs (residue b) <=? 8) with false by (symmetry; apply Z.leb_gt; lia).
      rewrite andb_false_r. rewrite !Z.mul_0_l, zmul_0. destruct (residue b <? 0); [apply pneg_0|reflexivity].
Qed.
Lemma sel_step m kind pos b a a' :
  (forall t i r, tab m t i = Some r -> (r < nrow m)%nat /\ kind r = i) ->
  (forall r j e, (r < nrow m)%nat -> row m r j = Some e -> repc PRECOMPUTED e (zmul ((Z.of_nat j + 1) * 256 ^ Z.of_nat (kind r)) P)) ->
  sel_good (nrow m) kind pos b a -> act_step m a = (m, a') -> sel_good (nrow m) kind pos b a'.
Proof.
  intros It Ir H X. destruct H as [->|[[Hp [t ->]]|[(Hp & r & j & t0 & -> & Lj & Lr & Kr & R0)|(x & -> & G)]]].
  - unfold program, p_select in X. cbn [act_step] in X. injection X as <-. destruct (m_single m) as [t|].
    + destruct (Z.ltb_spec pos 0); cbn [orb]; [right; right; right; exists RPanic; split; [reflexivity|left; reflexivity]|].
      destruct (Z.leb_spec 32 pos); [right; right; right; exists RPanic; split; [reflexivity|left; reflexivity]|].
      right. left. split; [lia|]. exists t. reflexivity.
    + right; right; right; exists RPanic; split; [reflexivity|left; reflexivity].
  - unfold sel1 in X. cbn [act_step] in X. injection X as <-. destruct (tab m t (Z.to_nat pos)) as [r|] eqn:Et.
    + right. right. left. split; [exact Hp|]. exists r, 0%nat, zero_precomputed. split; [reflexivity|]. split; [lia|].
      destruct (It _ _ _ Et) as [T1 T2]. split; [exact T1|]. split; [exact T2|]. unfold pick.
      replace (_ && _) with false; [rewrite Z.mul_0_l, zmul_0; apply zero_prec_rep|].
      symmetry. apply andb_false_iff. destruct (Z.leb_spec 1 (Z.abs (residue b) mod 256)); [right; apply Z.leb_gt; lia|left; reflexivity].
    + right. right. right. apply (last_good pos b zero_precomputed 0); [lia|left; reflexivity|]. unfold pick.
      replace (_ && _) with false; [rewrite Z.mul_0_l, zmul_0; apply zero_prec_rep|].
      symmetry. apply andb_false_iff. destruct (Z.leb_spec 1 (Z.abs (residue b) mod 256)); [right; apply Z.leb_gt; lia|left; reflexivity].
  - replace (8 - j)%nat with (S (7 - j)) in X by lia. cbn [p_select_loop act_step] in X. injection X as <-.
    unfold byte_eq_int. rewrite byte_eq_exact. unfold abs_of at 1. rewrite residue_abs.
    assert (D : 0 <= Z.abs (residue b) mod 256 < 256) by (apply Z.mod_pos_bound; lia).
    rewrite (Z.mod_small (Z.of_nat j + 1)) by lia.
    assert (Go : forall t1, repc PRECOMPUTED t1 (zmul (pick b (S j) * 256 ^ pos) P) ->
      sel_good (nrow m) kind pos b (p_select_loop (7 - j) (S j) r (abs_of b) t1 (lastk b))).
    { intros t1 R1. destruct (Nat.eq_dec j 7) as [->|N].
      - change (7 - 7)%nat with 0%nat. cbn [p_select_loop]. right. right. right. apply (last_good pos b t1 8); [lia|right; reflexivity|exact R1].
      - right. right. left. split; [exact Hp|]. exists r, (S j), t1. replace (8 - S j)%nat with (7 - j)%nat by lia.
        split; [reflexivity|]. split; [lia|]. auto. }
    unfold pick in R0, Go. cbv zeta in R0, Go.
    destruct (Z.eqb_spec (Z.abs (residue b) mod 256) (Z.of_nat j + 1)) as [Q|Q]; unfold r_cmov; cbn [Z.eqb Pos.eqb].
    + destruct (row m r j) as [e|] eqn:Er.
      * apply Go. rewrite Q. rewrite (proj2 (Z.leb_le 1 _)) by lia. rewrite (proj2 (Z.leb_le (Z.of_nat j + 1) _)) by lia. cbn [andb].
        pose proof (Ir _ _ _ Lr Er) as Re. rewrite Kr, Z2Nat.id in Re by lia. exact Re.
      * right. right. right. exists RNil. split; [reflexivity|]. right. left. reflexivity.
    + apply Go. replace ((1 <=? Z.abs (residue b) mod 256) && (Z.abs (residue b) mod 256 <=? Z.of_nat (S j)))
        with ((1 <=? Z.abs (residue b) mod 256) && (Z.abs (residue b) mod 256 <=? Z.of_nat j)); [exact R0|].
      apply f_equal. destruct (Z.leb_spec (Z.abs (residue b) mod 256) (Z.of_nat j)), (Z.leb_spec (Z.abs (residue b) mod 256) (Z.of_nat (S j))); try reflexivity; lia.
  - cbn [act_step] in X. injection X as <-. right. right. right. exists x. auto.
Qed.

(** ** The invariant *)
Definition iS (s : machine) (n : nat) : Prop := exists a, nth_error (threads s) n = Some (CSingle, a).
Definition iD (s : machine) (n : nat) : Prop := exists a, nth_error (threads s) n = Some (CDouble, a).
Record Inv (s : machine) (kind : nat -> nat) (gs : nat -> st) : Prop := {
  i_single : forall n a, nth_error (threads s) n = Some (CSingle, a) ->
    a = code (gs n) /\ valid (gs n) /\ single_st (gs n) /\ held (nrow (memory s)) kind (gs n);
  i_double : forall n a, nth_error (threads s) n = Some (CDouble, a) -> a = code (gs n) /\ valid (gs n) /\ double_st (gs n);
  i_reader : forall n x a, x <> CSingle -> x <> CDouble -> nth_error (threads s) n = Some (x, a) ->
    reader a /\ forall pos b, x = CSelect pos b -> sel_good (nrow (memory s)) kind pos b a;
  i_tab : forall t i r, tab (memory s) t i = Some r -> (r < nrow (memory s))%nat /\ kind r = i;
  i_row : forall r j e, (r < nrow (memory s))%nat -> row (memory s) r j = Some e ->
    repc PRECOMPUTED e (zmul ((Z.of_nat j + 1) * 256 ^ Z.of_nat (kind r)) P);
  i_dtab : forall t j e, dtab (memory s) t j = Some e -> repc PRECOMPUTED e (zmul (2 * Z.of_nat j + 1) P);
  i_early : m_single (memory s) = None -> forall n, iS s n -> early (gs n);
  i_dearly : m_double (memory s) = None -> forall n, iD s n -> dearly (gs n);
  i_new : forall t, m_single (memory s) = Some t -> forall i, (i < 32)%nat -> cov (memory s) (iS s) gs t i;
  i_dnew : (forall n, iD s n -> gs n <> E Panicked) -> forall t, m_double (memory s) = Some t -> dcov (memory s) (iD s) gs t }.

Lemma cov_ext m (p p' : nat -> Prop) gs gs' t i : (forall n, p n -> p' n /\ gs' n = gs n) -> cov m p gs t i -> cov m p' gs' t i.
Proof.
  intros H. unfold cov. destruct (tab m t i).
  - intros (J & L & F & W). exists J. split; [exact L|]. split; [exact F|]. destruct W as [W|(k & Ik & W)]; [left; exact W|]. right. exists k.
    destruct (H k Ik) as [Hp He]. rewrite He. auto.
  - intros (k & Ik & W). exists k. destruct (H k Ik) as [Hp He]. rewrite He. auto.
Qed.
Lemma dcov_ext m (p p' : nat -> Prop) gs gs' t : (forall n, p n -> p' n /\ gs' n = gs n) -> dcov m p gs t -> dcov m p' gs' t.
Proof.
  intros H (J & L & F & W). exists J. split; [exact L|]. split; [exact F|]. destruct W as [W|(k & Ik & W)]; [left; exact W|]. right. exists k.
  destruct (H k Ik) as [Hp He]. rewrite He. auto.
Qed.
Lemma nth_snoc {A} (l : list A) z n y : nth_error (l ++ [z]) n = Some y ->
  nth_error l n = Some y /\ n <> length l \/ n = length l /\ y = z.
Proof.
  intros H. destruct (Nat.lt_ge_cases n (length l)) as [L|L].
  - rewrite nth_error_app1 in H by exact L. left. split; [exact H|lia].
  - rewrite nth_error_app2 in H by exact L. right. destruct (n - length l)%nat as [|k] eqn:Ek; cbn [nth_error] in H.
    + injection H as <-. split; [lia|reflexivity].
    + destruct k; discriminate H.
Qed.
Lemma p_select_loop_reader bAbs k : (forall x, reader (k x)) -> forall n j r t, reader (p_select_loop n j r bAbs t k).
Proof.
  intros Hk. induction n as [|n IH]; intros j r t; cbn [p_select_loop]; [apply Hk|]. cbn [reader]. intros el.
  destruct (r_cmov _ _ _); auto.
Qed.
Lemma p_select_reader pos b k : (forall x, reader (k x)) -> reader (p_select pos b k).
Proof.
  intros Hk. unfold p_select. cbn [reader]. intros [t|]; [|apply Hk]. destruct ((pos <? 0) || (32 <=? pos)); [apply Hk|].
  cbn [reader]. intros [r|]; [|apply Hk]. apply p_select_loop_reader. intros x. apply Hk.
Qed.
Lemma p_sm_loop_reader e k : (forall x, reader (k x)) -> forall is h, reader (p_sm_loop e is h k).
Proof.
  intros Hk. induction is as [|i is IH]; intros h; cbn [p_sm_loop]; [apply Hk|]. apply p_select_reader. intros x.
  destruct (rbind x _); auto.
Qed.
Lemma program_reader x : x <> CSingle -> x <> CDouble -> reader (program c x).
Proof.
  intros H1 H2. destruct x as [| | |pos b|a]; try congruence; cbn [program].
  - unfold p_is_double. cbn [reader]. intros f. exact I.
  - apply p_select_reader. intros x. exact I.
  - unfold p_scalar_multiply. destruct (to_radix16 a) as [e| |]; try exact I. apply p_sm_loop_reader. intros x.
    destruct (rbind x _); try exact I. apply p_sm_loop_reader. intros y. exact I.
Qed.
Lemma inv_start s kind gs x : Inv s kind gs -> exists gs', Inv (m_step c s (Start x)) kind gs' /\
  (forall n, (n < length (threads s))%nat -> gs' n = gs n) /\ gs' (length (threads s)) = match x with CDouble => D0 | _ => A0 end.
Proof.
  intros [Hs Hd Hr It Ir Id Ie Ide In Idn].
  set (L := length (threads s)).
  set (g0 := match x with CDouble => D0 | _ => A0 end).
  exists (put gs L g0). split; [|split; [intros n Hn; apply put_other; unfold L; lia|apply put_same]].
  assert (Keep : forall n y, nth_error (threads s) n = Some y -> nth_error (threads s ++ [(x, program c x)]) n = Some y).
  { intros n y H. rewrite nth_error_app1; [exact H|]. apply nth_error_Some. congruence. }
  assert (NL : forall n y, nth_error (threads s) n = Some y -> n <> L).
  { intros n y H ->. unfold L in H. rewrite (proj2 (nth_error_None (threads s) (length (threads s)))) in H by lia. discriminate H. }
  constructor; cbn [m_step memory threads]; try assumption.
  - intros n a H. destruct (nth_snoc _ _ _ _ H) as [[H' N]|[-> Y]].
    + rewrite put_other by exact N. now apply Hs.
    + injection Y as <- ->. rewrite put_same. unfold g0. cbn [valid single_st held code program]. auto.
  - intros n a H. destruct (nth_snoc _ _ _ _ H) as [[H' N]|[-> Y]].
    + rewrite put_other by exact N. now apply Hd.
    + injection Y as <- ->. rewrite put_same. unfold g0. cbn [valid double_st held code program]. auto.
  - intros n y a Y1 Y2 H. destruct (nth_snoc _ _ _ _ H) as [[H' N]|[-> Y]]; [now apply (Hr n y)|]. injection Y as <- ->.
    split; [now apply program_reader|]. intros pos b ->. left. reflexivity.
  - intros E0 n [a H]. cbn [threads] in H. destruct (nth_snoc _ _ _ _ H) as [[H' N]|[-> Y]].
    + rewrite put_other by exact N. apply Ie; [exact E0|]. exists a. exact H'.
    + injection Y as <- ->. rewrite put_same. exact I.
  - intros E0 n [a H]. cbn [threads] in H. destruct (nth_snoc _ _ _ _ H) as [[H' N]|[-> Y]].
    + rewrite put_other by exact N. apply Ide; [exact E0|]. exists a. exact H'.
    + injection Y as <- ->. rewrite put_same. exact I.
  - intros t Ht i Hi. apply (cov_ext _ (iS s) _ gs); [|now apply In]. intros n [a H]. split; [exists a; apply Keep, H|].
    apply put_other. exact (NL _ _ H).
  - intros Np t Ht. apply (dcov_ext _ (iD s) _ gs).
    + intros n [a H]. split; [exists a; apply Keep, H|]. apply put_other. exact (NL _ _ H).
    + apply Idn; [|exact Ht]. intros n [a H]. specialize (Np n). rewrite put_other in Np by exact (NL _ _ H). apply Np. exists a. apply Keep, H.
Qed.

Lemma inv_turn s kind gs n : Inv s kind gs -> exists kind' gs', Inv (m_step c s (Turn n)) kind' gs' /\ (forall k, k <> n -> gs' k = gs k) /\
  (iS s n \/ iD s n -> gs' n = sstep (memory s) (gs n)).
Proof.
  intros HI. pose proof HI as [Hs Hd Hr It Ir Id Ie Ide In Idn]. cbn [m_step].
  destruct (nth_error (threads s) n) as [[x a]|] eqn:En; [|exists kind, gs; split; [exact HI|split; [reflexivity|intros [[b Hb]|[b Hb]]; congruence]]].
  assert (NT : forall a' k y b, nth_error (set_nth (threads s) n (x, a')) k = Some (y, b) ->
    k = n /\ y = x /\ b = a' \/ k <> n /\ nth_error (threads s) k = Some (y, b)).
  { intros a' k y b H. rewrite (nth_set_nth _ _ _ _ _ En) in H. destruct (Nat.eqb_spec k n) as [->|N]; [injection H as -> ->; auto|auto]. }
  assert (TN : forall a' k y b, nth_error (threads s) k = Some (y, b) -> exists b', nth_error (set_nth (threads s) n (x, a')) k = Some (y, b')).
  { intros a' k y b H. rewrite (nth_set_nth _ _ _ _ _ En). destruct (Nat.eqb_spec k n) as [->|N]; [|eauto]. rewrite En in H. injection H as -> _. eauto. }
  assert (TS : forall a' k y b, nth_error (set_nth (threads s) n (x, a')) k = Some (y, b) -> exists b', nth_error (threads s) k = Some (y, b')).
  { intros a' k y b H. destruct (NT _ _ _ _ H) as [(-> & -> & _)|[_ H']]; eauto. }
  destruct (act_step (memory s) a) as [m' a'] eqn:Ea.
  assert (SS : forall m k, iS (Machine m (set_nth (threads s) n (x, a'))) k <-> iS s k).
  { intros m k. unfold iS. cbn [threads]. split; intros [b H]; [destruct (TS _ _ _ _ H)|destruct (TN a' _ _ _ H)]; eauto. }
  assert (DD : forall m k, iD (Machine m (set_nth (threads s) n (x, a'))) k <-> iD s k).
  { intros m k. unfold iD. cbn [threads]. split; intros [b H]; [destruct (TS _ _ _ _ H)|destruct (TN a' _ _ _ H)]; eauto. }
  destruct (match x with CSingle => true | _ => false end) eqn:Xs.
  - (* the first precomputation *)
    destruct x; try discriminate Xs. clear Xs.
    destruct (Hs n a En) as (-> & V & SSt & Hh). rewrite (sim _ _ V) in Ea. injection Ea as <- <-.
    set (g := gs n) in *. set (m := memory s) in *.
    set (kind' := match g with S2 _ i => put kind (nrow m) i | _ => kind end).
    assert (Nm : (nrow m <= nrow (mstep m g))%nat) by (destruct g; cbn [mstep new_s new_d new_r set_e set_de nrow]; lia).
    assert (Kk : forall r, (r < nrow m)%nat -> kind' r = kind r).
    { intros r Lr. unfold kind'. destruct g; try reflexivity. apply put_other. lia. }
    assert (Held : forall q, held (nrow m) kind q -> held (nrow (mstep m g)) kind' q).
    { intros q. destruct q; cbn [held]; auto. intros [Q1 Q2]. split; [lia|]. now rewrite Kk. }
    exists kind', (put gs n (sstep m g)). split; [|split; [intros k Nk; now apply put_other|intros _; apply put_same]].
    assert (nD : forall k, iD s k -> k <> n) by (intros k [b Hb] ->; congruence).
    constructor; cbn [memory threads].
    + intros k b H. destruct (NT _ _ _ _ H) as [(-> & _ & ->)|[Nk H']].
      * rewrite put_same. split; [reflexivity|]. split; [now apply valid_step|]. split; [now apply single_step|].
        unfold kind'. clear - It Hh V. fold m in It. destruct g; cbn [sstep]; try exact I;
          repeat match goal with |- held _ _ (match ?x with _ => _ end) => destruct x eqn:? end; unfold nxs;
          repeat match goal with |- held _ _ (if ?x then _ else _) => destruct x eqn:? end; try exact I;
          try (destruct q; cbn [q_step]; repeat match goal with |- held _ _ (match ?x with _ => _ end) => destruct x eqn:? end; exact I).
        cbn [held mstep]. now apply It with t.
      * rewrite put_other by exact Nk. destruct (Hs _ _ H') as (Q1 & Q2 & Q3 & Q4). auto.
    + intros k b H. destruct (NT _ _ _ _ H) as [(_ & Q & _)|[Nk H']]; [discriminate Q|]. rewrite put_other by exact Nk. auto.
    + intros k y b Y1 Y2 H. destruct (NT _ _ _ _ H) as [(_ & Q & _)|[Nk H']]; [congruence|]. destruct (Hr _ _ _ Y1 Y2 H') as [R1 R2].
      split; [exact R1|]. intros pos b0 Ey. apply sel_good_mono with (nrow m) kind; auto.
    + clear - It. fold m in It. intros t i r. destruct g as [| |q| | |i0|t0 i0|i0|t0 i0|i0 j0|t0 i0 j0|r0 i0 j0| | |q| |j0|t0 j0|o]; cbn [mstep new_s new_d new_r set_e set_de nrow tab]; subst kind'; cbv iota; try apply It.
      * unfold put. destruct (Nat.eqb t (ntab m)); [discriminate|apply It].
      * unfold put at 1. destruct (Nat.eqb_spec t t0) as [->|N].
        -- unfold put at 1. destruct (Nat.eqb_spec i i0) as [->|N'].
           ++ intros Q. injection Q as <-. split; [lia|apply put_same].
           ++ intros Q. destruct (It _ _ _ Q) as [I1 I2]. split; [lia|]. rewrite put_other by lia. exact I2.
        -- intros Q. destruct (It _ _ _ Q) as [I1 I2]. split; [lia|]. rewrite put_other by lia. exact I2.
    + intros r j e. specialize (Ir r j e). fold m in Ir.
      destruct g as [| |q| | |i0|t0 i0|i0|t0 i0|i0 j0|t0 i0 j0|r0 i0 j0| | |q| |j0|t0 j0|o] eqn:Eg; cbn [mstep new_s new_d new_r set_e set_de nrow row]; subst kind'; cbv iota; try exact Ir.
      * unfold put at 1. destruct (Nat.eqb_spec r (nrow m)) as [->|N]; [discriminate|]. intros Q. rewrite put_other by exact N. apply Ir. lia.
      * cbn [held] in Hh. unfold put at 1. destruct (Nat.eqb_spec r r0) as [->|N]; [|exact Ir].
        unfold put at 1. destruct (Nat.eqb_spec j j0) as [->|N]; [|exact Ir]. intros _ Q. injection Q as <-. destruct Hh as [_ ->].
        apply prec_entry_ok, Cs_ok.
    + clear - Id SSt. fold m in Id. intros t j e. destruct g; cbn [single_st] in SSt; try tauto; cbn [mstep new_s new_r set_e dtab]; apply Id.
    + intros E0 k Ik. apply SS in Ik. assert (E1 : m_single m = None).
      { destruct g; cbn [mstep new_s new_d new_r set_e set_de m_single] in E0; try exact E0. discriminate E0. }
      destruct (Nat.eq_dec k n) as [->|Nk]; [|rewrite put_other by exact Nk; now apply Ie].
      rewrite put_same. pose proof (Ie E1 n Ik) as Eg. fold g in Eg.
      destruct g as [| |q| | |i0|t0 i0|i0|t0 i0|i0 j0|t0 i0 j0|r0 i0 j0| | |q| |j0|t0 j0|o]; cbn [early] in Eg; try tauto; cbn [sstep].
      * rewrite E1. exact I.
      * rewrite E1. exact I.
      * destruct q as [|u|u d|d]; cbn [q_step]; try exact I; [rewrite E1; destruct u; exact I|destruct d, (m_double m); exact I].
      * discriminate E0.
    + intros E0 k Ik. apply DD in Ik. rewrite put_other by now apply nD. apply Ide; [|exact Ik].
      destruct g; cbn [single_st] in SSt; try tauto; exact E0.
    + intros t Ht i Hi. apply (cov_ext _ (iS s) _ (put gs n (sstep m g))); [intros k Ik; split; [now apply SS|reflexivity]|].
      apply cov_step with kind; auto; [exists (code g); exact En|]. intros t1 i1 r1 Q. exact (proj1 (It _ _ _ Q)).
    + intros Np t Ht. assert (Em : m_double m = Some t) by (destruct g; cbn [single_st] in SSt; try tauto; exact Ht).
      assert (Np' : forall k, iD s k -> gs k <> E Panicked).
      { intros k Ik. specialize (Np k (proj2 (DD _ _) Ik)). rewrite put_other in Np by now apply nD. exact Np. }
      destruct (Idn Np' t Em) as (J & L & F & W). exists J. split; [exact L|]. split.
      { intros j Hj. destruct g; cbn [single_st] in SSt; try tauto; apply F, Hj. }
      destruct W as [W|(k & Ik & W)]; [left; exact W|]. right. exists k. split; [now apply DD|]. rewrite put_other by now apply nD. exact W.
  - destruct (match x with CDouble => true | _ => false end) eqn:Xd.
    + (* the second precomputation *)
      destruct x; try discriminate Xd. clear Xs Xd.
      destruct (Hd n a En) as (-> & V & DSt). rewrite (sim _ _ V) in Ea. injection Ea as <- <-.
      set (g := gs n) in *. set (m := memory s) in *.
      exists kind, (put gs n (sstep m g)). split; [|split; [intros k Nk; now apply put_other|intros _; apply put_same]].
      assert (nS : forall k, iS s k -> k <> n) by (intros k [b Hb] ->; congruence).
      assert (Em : m_single (mstep m g) = m_single m /\ tab (mstep m g) = tab m /\ row (mstep m g) = row m /\ nrow (mstep m g) = nrow m).
      { destruct g; cbn [double_st] in DSt; try tauto; auto. }
      destruct Em as (Em1 & Em2 & Em3 & Em4).
      constructor; cbn [memory threads]; rewrite ?Em1, ?Em2, ?Em3, ?Em4; try assumption.
      * intros k b H. destruct (NT _ _ _ _ H) as [(_ & Q & _)|[Nk H']]; [discriminate Q|]. rewrite put_other by exact Nk. auto.
      * intros k b H. destruct (NT _ _ _ _ H) as [(-> & _ & ->)|[Nk H']].
        -- rewrite put_same. split; [reflexivity|]. split; [now apply valid_step|now apply double_step].
        -- rewrite put_other by exact Nk. auto.
      * intros k y b Y1 Y2 H. destruct (NT _ _ _ _ H) as [(_ & Q & _)|[Nk H']]; [congruence|]. exact (Hr _ _ _ Y1 Y2 H').
      * intros t j e. specialize (Id t j e). fold m in Id.
        destruct g as [| |q| | |i0|t0 i0|i0|t0 i0|i0 j0|t0 i0 j0|r0 i0 j0| | |q| |j0|t0 j0|o]; cbn [double_st] in DSt; try tauto; cbn [mstep new_d set_de dtab]; try exact Id.
        -- unfold put. destruct (Nat.eqb t (ndtab m)); [discriminate|exact Id].
        -- unfold put at 1. destruct (Nat.eqb_spec t t0) as [->|N]; [|exact Id]. unfold put at 1. destruct (Nat.eqb_spec j j0) as [->|N]; [|exact Id].
           intros Q. injection Q as <-. apply prec_entry_ok, Ds_ok.
      * intros E0 k Ik. apply SS in Ik. rewrite put_other by now apply nS. now apply Ie.
      * intros E0 k Ik. apply DD in Ik. assert (E1 : m_double m = None).
        { destruct g; cbn [double_st] in DSt; try tauto; cbn [mstep new_d set_de m_double] in E0; try exact E0. discriminate E0. }
        destruct (Nat.eq_dec k n) as [->|Nk]; [|rewrite put_other by exact Nk; now apply Ide].
        rewrite put_same. pose proof (Ide E1 n Ik) as Eg. fold g in Eg.
        destruct g; cbn [dearly] in Eg; try tauto; cbn [sstep]; [rewrite E1; exact I|discriminate E0].
      * intros t Ht i Hi. specialize (In t Ht i Hi). fold m in In. unfold cov in *. rewrite Em2, Em3. destruct (tab m t i) as [r|].
        -- destruct In as (J & L & F & W). exists J. split; [exact L|]. split; [exact F|]. destruct W as [W|(k & Ik & W)]; [left; exact W|].
           right. exists k. split; [now apply SS|]. rewrite put_other by now apply nS. exact W.
        -- destruct In as (k & Ik & W). exists k. split; [now apply SS|]. rewrite put_other by now apply nS.
           revert W. apply pend_mono. now rewrite Em2.
      * intros Np t Ht. apply (dcov_ext _ (iD s) _ (put gs n (sstep m g))); [intros k Ik; split; [now apply DD|reflexivity]|].
        assert (In' : iD s n) by (exists (code g); exact En).
        apply dcov_step; auto.
        -- fold g. specialize (Np n (proj2 (DD _ _) In')). rewrite put_same in Np. exact Np.
        -- intros t1 Ht1. apply Idn; [|exact Ht1]. intros k Ik. specialize (Np k (proj2 (DD _ _) Ik)).
           destruct (Nat.eq_dec k n) as [->|Nk]; [|rewrite put_other in Np by exact Nk; exact Np].
           rewrite put_same in Np. fold g. intros Q. rewrite Q in Np. apply Np. reflexivity.
    + (* a call that only reads *)
      assert (Y1 : x <> CSingle) by (intros ->; discriminate Xs). assert (Y2 : x <> CDouble) by (intros ->; discriminate Xd).
      destruct (Hr n x a Y1 Y2 En) as [R1 R2]. destruct (reader_step (memory s) a R1) as (a1 & Ea1 & R1'). rewrite Ea1 in Ea. injection Ea as <- <-.
      exists kind, gs. split; [|split; [reflexivity|intros [[b Hb]|[b Hb]]; congruence]].
      constructor; cbn [memory threads]; try assumption.
      * intros k b H. destruct (NT _ _ _ _ H) as [(_ & Q & _)|[Nk H']]; [congruence|]. auto.
      * intros k b H. destruct (NT _ _ _ _ H) as [(_ & Q & _)|[Nk H']]; [congruence|]. auto.
      * intros k y b Z1 Z2 H. destruct (NT _ _ _ _ H) as [(-> & -> & ->)|[Nk H']]; [|exact (Hr _ _ _ Z1 Z2 H')].
        split; [exact R1'|]. intros pos b Ex. exact (sel_step _ _ _ _ _ _ It Ir (R2 pos b Ex) Ea1).
      * intros E0 k Ik. apply SS in Ik. now apply Ie.
      * intros E0 k Ik. apply DD in Ik. now apply Ide.
      * intros t Ht i Hi. apply (cov_ext _ (iS s) _ gs); [intros k Ik; split; [now apply SS|reflexivity]|]. now apply In.
      * intros Np t Ht. apply (dcov_ext _ (iD s) _ gs); [intros k Ik; split; [now apply DD|reflexivity]|]. apply Idn; [|exact Ht].
        intros k Ik. apply Np. now apply DD.
Qed.
Lemma inv_blank : Inv (Machine blank []) (fun _ => 0%nat) (fun _ => A0).
Proof.
  constructor; cbn [memory threads blank m_single m_double tab row dtab nrow]; try discriminate.
  - intros [|n] a H; discriminate H.
  - intros [|n] a H; discriminate H.
  - intros [|n] x a _ _ H; discriminate H.
  - intros _ n [a H]. destruct n; discriminate H.
  - intros _ n [a H]. destruct n; discriminate H.
Qed.
Lemma inv_step s kind gs e : Inv s kind gs -> exists kind' gs', Inv (m_step c s e) kind' gs'.
Proof.
  intros H. destruct e as [x|n].
  - destruct (inv_start s kind gs x H) as (gs' & H' & _). eauto.
  - destruct (inv_turn s kind gs n H) as (kind' & gs' & H' & _). eauto.
Qed.
Lemma inv_run h : forall s kind gs, Inv s kind gs -> exists kind' gs', Inv (m_run c s h) kind' gs'.
Proof.
  induction h as [|e h IH]; intros s kind gs H; [exists kind, gs; exact H|].
  destruct (inv_step s kind gs e H) as (k' & g' & H'). exact (IH _ _ _ H').
Qed.
Lemma inv_race h : exists kind gs, Inv (race c h) kind gs.
Proof. exact (inv_run h _ _ _ inv_blank). Qed.
End Race.
