(** Straight-line int64 programs, their wrapping (Go) semantics, an exact semantics, and
    two analyses with soundness proofs:
    - [analyze]: intervals; proves that no operation overflows and bounds the results;
    - [wp]: backward polynomial transformer; proves congruences between weighted sums of
      the results and polynomials in the inputs. *)
From Coq Require Import List ZArith Lia Bool Znumtheory.
From Coq Require Import FMapPositive.
From Verif Require Import GoBase.
Import ListNotations.
Open Scope Z_scope.

Inductive exp : Set :=
| V (x : positive)
| C (z : Z)
| Add (a b : exp)
| Sub (a b : exp)
| Mul (a b : exp)
| Shl (a : exp) (k : Z)
| Shr (a : exp) (k : Z).

Record instr := Asg { lhs : positive; rhs : exp }.
Definition prog := list instr.

Definition env := PositiveMap.t Z.
Definition get (e : env) (x : positive) : Z :=
  match PositiveMap.find x e with Some v => v | None => 0 end.
Definition set (e : env) (x : positive) (v : Z) : env := PositiveMap.add x v e.

(** Go semantics: every operation wraps modulo 2^64; [>>] on int64 is arithmetic. *)
Fixpoint ev64 (m : env) (e : exp) : Z :=
  match e with
  | V x => get m x
  | C z => z
  | Add a b => w64 (ev64 m a + ev64 m b)
  | Sub a b => w64 (ev64 m a - ev64 m b)
  | Mul a b => w64 (ev64 m a * ev64 m b)
  | Shl a k => w64 (ev64 m a * 2 ^ k)
  | Shr a k => Z.shiftr (ev64 m a) k
  end.
Fixpoint run64 (p : prog) (m : env) : env :=
  match p with
  | [] => m
  | Asg x e :: r => run64 r (set m x (ev64 m e))
  end.

(** Exact integer semantics. *)
Fixpoint evZ (m : env) (e : exp) : Z :=
  match e with
  | V x => get m x
  | C z => z
  | Add a b => evZ m a + evZ m b
  | Sub a b => evZ m a - evZ m b
  | Mul a b => evZ m a * evZ m b
  | Shl a k => evZ m a * 2 ^ k
  | Shr a k => evZ m a / 2 ^ k
  end.
Fixpoint runZ (p : prog) (m : env) : env :=
  match p with
  | [] => m
  | Asg x e :: r => runZ r (set m x (evZ m e))
  end.

Lemma get_set_eq m x v : get (set m x v) x = v.
Proof. unfold get, set. now rewrite PositiveMap.gss. Qed.
Lemma get_set_neq m x y v : x <> y -> get (set m x v) y = get m y.
Proof. intros H. unfold get, set. rewrite PositiveMap.gso; congruence. Qed.

Lemma run64_app p r m : run64 (p ++ r) m = run64 r (run64 p m).
Proof. revert m; induction p as [|[x e] p IH]; intros m; cbn [app run64]; auto. Qed.
Lemma runZ_app p r m : runZ (p ++ r) m = runZ r (runZ p m).
Proof. revert m; induction p as [|[x e] p IH]; intros m; cbn [app runZ]; auto. Qed.

Lemma w64_id x : in64 x -> w64 x = x.
Proof. unfold in64, w64; intros H. rewrite Z.mod_small; lia. Qed.

(** ** Interval analysis *)
Definition itv := (Z * Z)%type.
Definition ienv := PositiveMap.t itv.
Definition iget (e : ienv) (x : positive) : option itv := PositiveMap.find x e.

Definition in_itv (v : Z) (i : itv) : Prop := fst i <= v <= snd i.
Definition ok64 (i : itv) : option itv :=
  if (- 2^63 <=? fst i) && (snd i <? 2^63) then Some i else None.

Definition imul (a b : itv) : itv :=
  let p1 := fst a * fst b in let p2 := fst a * snd b in
  let p3 := snd a * fst b in let p4 := snd a * snd b in
  (Z.min (Z.min p1 p2) (Z.min p3 p4), Z.max (Z.max p1 p2) (Z.max p3 p4)).

Fixpoint evI (m : ienv) (e : exp) : option itv :=
  match e with
  | V x => iget m x
  | C z => ok64 (z, z)
  | Add a b => match evI m a, evI m b with
               | Some i, Some j => ok64 (fst i + fst j, snd i + snd j)
               | _, _ => None end
  | Sub a b => match evI m a, evI m b with
               | Some i, Some j => ok64 (fst i - snd j, snd i - fst j)
               | _, _ => None end
  | Mul a b => match evI m a, evI m b with
               | Some i, Some j => ok64 (imul i j)
               | _, _ => None end
  | Shl a k => match evI m a with
               | Some i => if 0 <=? k then ok64 (fst i * 2 ^ k, snd i * 2 ^ k) else None
               | None => None end
  | Shr a k => match evI m a with
               | Some i => if 0 <=? k then Some (fst i / 2 ^ k, snd i / 2 ^ k) else None
               | None => None end
  end.

(** A carry fact [(c, x, r, k)]: currently c = (x + r) / 2^k. *)
Definition fact := (positive * positive * Z * Z)%type.
Definition fact_holds (m : env) (f : fact) : Prop :=
  let '(c, x, r, k) := f in get m c = (get m x + r) / 2 ^ k /\ 0 <= k.
Definition keep (y : positive) (f : fact) : bool :=
  let '(c, x, r, k) := f in negb (Pos.eqb c y) && negb (Pos.eqb x y).
Definition new_fact (y : positive) (e : exp) : list fact :=
  match e with
  | Shr (Add (V x) (C r)) k => if negb (Pos.eqb x y) && (0 <=? k) then [(y, x, r, k)] else []
  | Shr (V x) k => if negb (Pos.eqb x y) && (0 <=? k) then [(y, x, 0, k)] else []
  | _ => []
  end.
Fixpoint find_fact (fs : list fact) (c x : positive) (k : Z) : option Z :=
  match fs with
  | [] => None
  | (c', x', r', k') :: fs' =>
      if Pos.eqb c c' && Pos.eqb x x' && (k =? k') then Some r' else find_fact fs' c x k
  end.
(** tighter interval for [x - (c << k)] when c is the (rounded) carry of x *)
Definition refine (fs : list fact) (e : exp) (i : itv) : itv :=
  match e with
  | Sub (V x) (Shl (V c) k) =>
      match find_fact fs c x k with
      | Some r => (Z.max (fst i) (- r), Z.min (snd i) (2 ^ k - 1 - r))
      | None => i
      end
  | _ => i
  end.

Fixpoint analyze (p : prog) (m : ienv) (fs : list fact) : option ienv :=
  match p with
  | [] => Some m
  | Asg x e :: r =>
      match evI m e with
      | None => None
      | Some i =>
          analyze r (PositiveMap.add x (refine fs e i) m) (new_fact x e ++ filter (keep x) fs)
      end
  end.

(** all variables with a known interval lie in it *)
Definition env_in (m : env) (im : ienv) : Prop :=
  forall x i, iget im x = Some i -> in_itv (get m x) i.

Lemma ok64_spec i j : ok64 i = Some j -> i = j /\ - 2^63 <= fst i /\ snd i < 2^63.
Proof.
  unfold ok64. destruct (_ && _) eqn:E; intros H; [|discriminate].
  apply andb_prop in E as [E1 E2]. apply Z.leb_le in E1. apply Z.ltb_lt in E2.
  split; [congruence|split; assumption].
Qed.

Lemma mul_bounds a b lo1 hi1 lo2 hi2 :
  lo1 <= a <= hi1 -> lo2 <= b <= hi2 ->
  in_itv (a * b) (imul (lo1, hi1) (lo2, hi2)).
Proof.
  intros Ha Hb. unfold in_itv, imul; cbn [fst snd].
  assert (L : forall x y u t, x <= t <= y -> Z.min (x*u) (y*u) <= t*u <= Z.max (x*u) (y*u)) by
    (intros x y u t Ht; destruct (Z.le_ge_cases 0 u);
     [assert (x*u <= t*u <= y*u) by nia|assert (y*u <= t*u <= x*u) by nia]; lia).
  pose proof (L lo1 hi1 b a Ha) as H1.
  pose proof (L lo2 hi2 lo1 b Hb) as H2.
  pose proof (L lo2 hi2 hi1 b Hb) as H3.
  rewrite (Z.mul_comm b lo1), (Z.mul_comm lo2 lo1), (Z.mul_comm hi2 lo1) in H2.
  rewrite (Z.mul_comm b hi1), (Z.mul_comm lo2 hi1), (Z.mul_comm hi2 hi1) in H3.
  lia.
Qed.

Definition env64 (m : env) := forall x, in64 (get m x).

Lemma evI_sound m im e i :
  env_in m im -> evI im e = Some i ->
  ev64 m e = evZ m e /\ in_itv (evZ m e) i.
Proof.
  intros Hm. revert i. induction e as [x|z|a IHa b IHb|a IHa b IHb|a IHa b IHb|a IHa k|a IHa k];
    intros i H; cbn [evI ev64 evZ] in *.
  - split; [reflexivity|]. apply Hm; exact H.
  - apply ok64_spec in H as [<- [H1 H2]]. unfold in_itv; cbn in *. split; [reflexivity|lia].
  - destruct (evI im a) as [ia|] eqn:Ea; [|discriminate].
    destruct (evI im b) as [ib|] eqn:Eb; [|discriminate].
    destruct (IHa _ eq_refl) as [A1 A2]. destruct (IHb _ eq_refl) as [B1 B2].
    apply ok64_spec in H as [<- [H1 H2]]. unfold in_itv in *; cbn [fst snd] in *.
    rewrite A1, B1. split; [apply w64_id; unfold in64; lia|lia].
  - destruct (evI im a) as [ia|] eqn:Ea; [|discriminate].
    destruct (evI im b) as [ib|] eqn:Eb; [|discriminate].
    destruct (IHa _ eq_refl) as [A1 A2]. destruct (IHb _ eq_refl) as [B1 B2].
    apply ok64_spec in H as [<- [H1 H2]]. unfold in_itv in *; cbn [fst snd] in *.
    rewrite A1, B1. split; [apply w64_id; unfold in64; lia|lia].
  - destruct (evI im a) as [[la ha]|] eqn:Ea; [|discriminate].
    destruct (evI im b) as [[lb hb]|] eqn:Eb; [|discriminate].
    destruct (IHa _ eq_refl) as [A1 A2]. destruct (IHb _ eq_refl) as [B1 B2].
    apply ok64_spec in H as [<- [H1 H2]].
    pose proof (mul_bounds _ _ _ _ _ _ A2 B2) as M.
    rewrite A1, B1. split; [|exact M]. apply w64_id; unfold in64; destruct M as [M1 M2].
    split; [exact (Z.le_trans _ _ _ H1 M1)|exact (Z.le_lt_trans _ _ _ M2 H2)].
  - destruct (evI im a) as [[la ha]|] eqn:Ea; [|discriminate].
    destruct (0 <=? k) eqn:Ek; [|discriminate]. apply Z.leb_le in Ek.
    destruct (IHa _ eq_refl) as [A1 A2].
    apply ok64_spec in H as [<- [H1 H2]]. unfold in_itv in *; cbn [fst snd] in *.
    assert (0 < 2 ^ k) by (apply Z.pow_pos_nonneg; lia).
    rewrite A1. split; [apply w64_id; unfold in64; nia|nia].
  - destruct (evI im a) as [[la ha]|] eqn:Ea; [|discriminate].
    destruct (0 <=? k) eqn:Ek; [|discriminate]. apply Z.leb_le in Ek.
    destruct (IHa _ eq_refl) as [A1 A2]. injection H as <-.
    unfold in_itv in *; cbn [fst snd] in *.
    assert (0 < 2 ^ k) by (apply Z.pow_pos_nonneg; lia).
    rewrite A1. split; [apply Z.shiftr_div_pow2; lia|].
    split; apply Z.div_le_mono; lia.
Qed.

Lemma find_fact_sound m fs c x k r :
  Forall (fact_holds m) fs -> find_fact fs c x k = Some r ->
  get m c = (get m x + r) / 2 ^ k /\ 0 <= k.
Proof.
  induction 1 as [|[[[c' x'] r'] k'] fs Hf Hfs IH]; cbn [find_fact]; [discriminate|].
  destruct (Pos.eqb c c' && Pos.eqb x x' && (k =? k')) eqn:E; [|exact IH].
  intros H. apply andb_prop in E as [E E3]. apply andb_prop in E as [E1 E2].
  apply Pos.eqb_eq in E1, E2. apply Z.eqb_eq in E3. injection H as <-. subst. exact Hf.
Qed.

Lemma refine_sound m fs e i :
  Forall (fact_holds m) fs -> in_itv (evZ m e) i -> in_itv (evZ m e) (refine fs e i).
Proof.
  intros Hf Hi. destruct e; try exact Hi. destruct e1; try exact Hi.
  destruct e2; try exact Hi. destruct e2; try exact Hi. cbn [refine].
  destruct (find_fact fs x0 x k) as [r|] eqn:E; [|exact Hi].
  destruct (find_fact_sound _ _ _ _ _ _ Hf E) as [Hc Hk].
  unfold in_itv in *; cbn [fst snd evZ] in *.
  assert (0 < 2 ^ k) by (apply Z.pow_pos_nonneg; lia).
  pose proof (Z.div_mod (get m x + r) (2 ^ k) ltac:(lia)) as D.
  pose proof (Z.mod_pos_bound (get m x + r) (2 ^ k) ltac:(lia)) as B.
  rewrite <- Hc in D. lia.
Qed.

Lemma new_fact_sound m x e v :
  v = evZ m e -> Forall (fact_holds (set m x v)) (new_fact x e).
Proof.
  intros Hv. destruct e; cbn [new_fact]; try constructor.
  destruct e; cbn [new_fact]; try constructor.
  - destruct (negb (Pos.eqb x0 x) && (0 <=? k)) eqn:E; constructor; [|constructor].
    apply andb_prop in E as [E1 E2]. apply negb_true_iff, Pos.eqb_neq in E1. apply Z.leb_le in E2.
    cbn [fact_holds]. rewrite get_set_eq, get_set_neq by congruence. rewrite Hv. cbn [evZ].
    rewrite Z.add_0_r. split; [reflexivity|lia].
  - destruct e1; try constructor. destruct e2; try constructor.
    destruct (negb (Pos.eqb x0 x) && (0 <=? k)) eqn:E; constructor; [|constructor].
    apply andb_prop in E as [E1 E2]. apply negb_true_iff, Pos.eqb_neq in E1. apply Z.leb_le in E2.
    cbn [fact_holds]. rewrite get_set_eq, get_set_neq by congruence. rewrite Hv. cbn [evZ].
    split; [reflexivity|lia].
Qed.

Lemma keep_sound m x v fs :
  Forall (fact_holds m) fs -> Forall (fact_holds (set m x v)) (filter (keep x) fs).
Proof.
  induction 1 as [|[[[c y] r] k] fs Hf Hfs IH]; cbn [filter]; [constructor|].
  destruct (keep x (c, y, r, k)) eqn:E; [|exact IH]. constructor; [|exact IH].
  cbn [keep] in E. apply andb_prop in E as [E1 E2].
  apply negb_true_iff, Pos.eqb_neq in E1, E2. cbn [fact_holds] in *.
  rewrite !get_set_neq by congruence. exact Hf.
Qed.

Theorem analyze_sound p m im fs im' :
  env_in m im -> Forall (fact_holds m) fs -> analyze p im fs = Some im' ->
  run64 p m = runZ p m /\ env_in (runZ p m) im'.
Proof.
  revert m im fs. induction p as [|[x e] p IH]; intros m im fs Hm Hf H; cbn [analyze run64 runZ] in *.
  - injection H as <-. split; [reflexivity|exact Hm].
  - destruct (evI im e) as [i|] eqn:E; [|discriminate].
    destruct (evI_sound _ _ _ _ Hm E) as [H1 H2]. rewrite H1.
    eapply IH; [| |exact H].
    + intros y j. unfold iget. destruct (Pos.eq_dec y x) as [->|N].
      * rewrite PositiveMap.gss. intros [= <-]. rewrite get_set_eq. apply refine_sound; assumption.
      * rewrite PositiveMap.gso by congruence. intros Hy. rewrite get_set_neq by congruence.
        apply Hm, Hy.
    + apply Forall_app. split; [apply new_fact_sound; reflexivity|apply keep_sound, Hf].
Qed.

(** Checking the result of the analysis against claimed output bounds. *)
Definition out_ok (outs : list (positive * itv)) (im : ienv) : bool :=
  forallb (fun '(x, i) => match iget im x with
                          | Some j => (fst i <=? fst j) && (snd j <=? snd i)
                          | None => false end) outs.
Definition mk_ienv (ins : list (positive * itv)) : ienv :=
  fold_left (fun m '(x, i) => PositiveMap.add x i m) ins (PositiveMap.empty itv).

Lemma mk_ienv_in m ins :
  (forall x i, In (x, i) ins -> in_itv (get m x) i) -> env_in m (mk_ienv ins).
Proof.
  intros H. unfold mk_ienv.
  assert (G : forall acc, env_in m acc ->
             env_in m (fold_left (fun m '(x, i) => PositiveMap.add x i m) ins acc)).
  { induction ins as [|[x i] ins IH]; intros acc Ha; cbn [fold_left]; [exact Ha|].
    apply IH; [intros y j Hy; apply H; right; exact Hy|].
    intros y j. unfold iget. destruct (Pos.eq_dec y x) as [->|N].
    - rewrite PositiveMap.gss. intros [= <-]. apply H; left; reflexivity.
    - rewrite PositiveMap.gso by congruence. apply Ha. }
  apply G. intros x i. unfold iget. rewrite PositiveMap.gempty. discriminate.
Qed.

Lemma out_ok_in m outs im :
  env_in m im -> out_ok outs im = true -> forall x i, In (x, i) outs -> in_itv (get m x) i.
Proof.
  intros Hm H x i Hin. unfold out_ok in H. rewrite forallb_forall in H.
  specialize (H _ Hin). cbn in H. destruct (iget im x) as [j|] eqn:E; [|discriminate].
  apply Hm in E. apply andb_prop in H as [H1 H2]. apply Z.leb_le in H1, H2.
  unfold in_itv in *. lia.
Qed.

Definition check_itv (p : prog) (ins outs : list (positive * itv)) : bool :=
  match analyze p (mk_ienv ins) [] with
  | Some im => out_ok outs im
  | None => false
  end.

Theorem check_itv_sound p ins outs m :
  check_itv p ins outs = true ->
  (forall x i, In (x, i) ins -> in_itv (get m x) i) ->
  run64 p m = runZ p m /\ (forall x i, In (x, i) outs -> in_itv (get (runZ p m) x) i).
Proof.
  unfold check_itv. destruct (analyze p (mk_ienv ins) []) as [im|] eqn:E; [|discriminate].
  intros Ho Hi. apply mk_ienv_in in Hi.
  destruct (analyze_sound p m _ [] im Hi (Forall_nil _) E) as [H1 H2].
  split; [exact H1|]. eapply out_ok_in; eassumption.
Qed.

(** ** Polynomial congruences, backwards *)
Definition mono := list positive.       (* product of variables *)
Definition poly := list (mono * Z).

Fixpoint mono_val (m : env) (l : mono) : Z :=
  match l with [] => 1 | x :: r => get m x * mono_val m r end.
Fixpoint poly_val (m : env) (p : poly) : Z :=
  match p with [] => 0 | (l, c) :: r => c * mono_val m l + poly_val m r end.

Fixpoint mono_eqb (a b : mono) : bool :=
  match a, b with
  | [], [] => true
  | x :: a', y :: b' => Pos.eqb x y && mono_eqb a' b'
  | _, _ => false
  end.
Lemma mono_eqb_eq a b : mono_eqb a b = true -> a = b.
Proof.
  revert b; induction a as [|x a IH]; intros [|y b]; cbn; try discriminate; [reflexivity|].
  intros H. apply andb_prop in H as [H1 H2]. apply Pos.eqb_eq in H1. f_equal; auto.
Qed.

Fixpoint mono_ins (x : positive) (l : mono) : mono :=
  match l with
  | [] => [x]
  | y :: r => if Pos.leb x y then x :: l else y :: mono_ins x r
  end.
Lemma mono_ins_val m x l : mono_val m (mono_ins x l) = get m x * mono_val m l.
Proof.
  induction l as [|y r IH]; cbn; [reflexivity|]. destruct (Pos.leb x y); cbn; [reflexivity|].
  rewrite IH. ring.
Qed.
Definition mono_mul (a b : mono) : mono := fold_right mono_ins b a.
Lemma mono_mul_val m a b : mono_val m (mono_mul a b) = mono_val m a * mono_val m b.
Proof.
  unfold mono_mul. induction a as [|x a IH]; cbn [fold_right mono_val]; [ring|].
  rewrite mono_ins_val, IH. ring.
Qed.

(** [md] is the modulus; 0 means exact arithmetic. *)
Section Wp.
Variable md : Z.
Definition red (c : Z) : Z := if md =? 0 then c else c mod md.
Definition cong (a b : Z) : Prop := (md | a - b).

Lemma cong_refl a : cong a a.
Proof. unfold cong. rewrite Z.sub_diag. apply Z.divide_0_r. Qed.
Lemma cong_sym a b : cong a b -> cong b a.
Proof. unfold cong. intros [k H]. exists (- k). lia. Qed.
Lemma cong_trans a b c : cong a b -> cong b c -> cong a c.
Proof. unfold cong. intros [k H] [l G]. exists (k + l). lia. Qed.
Lemma cong_add a b c d : cong a b -> cong c d -> cong (a + c) (b + d).
Proof. unfold cong. intros [k H] [l G]. exists (k + l). lia. Qed.
Lemma cong_mul a b c d : cong a b -> cong c d -> cong (a * c) (b * d).
Proof. unfold cong. intros [k H] [l G]. exists (k * c + b * l).
  replace (a*c-b*d) with ((a-b)*c + b*(c-d)) by ring. rewrite H, G. ring. Qed.
Lemma red_cong c : cong (red c) c.
Proof.
  unfold red, cong. destruct (md =? 0) eqn:E.
  - rewrite Z.sub_diag. apply Z.divide_0_r.
  - apply Z.eqb_neq in E. exists (- (c / md)). pose proof (Z.div_mod c md E). lia.
Qed.

Fixpoint padd1 (l : mono) (c : Z) (p : poly) : poly :=
  match p with
  | [] => let c' := red c in if c' =? 0 then [] else [(l, c')]
  | (l', c') :: r =>
      if mono_eqb l l' then let c2 := red (c + c') in if c2 =? 0 then r else (l', c2) :: r
      else (l', c') :: padd1 l c r
  end.
Lemma padd1_val m l c p : cong (poly_val m (padd1 l c p)) (c * mono_val m l + poly_val m p).
Proof.
  induction p as [|[l' c'] r IH]; cbn [padd1 poly_val].
  - pose proof (red_cong c) as Rc. destruct (red c =? 0) eqn:E; cbn [poly_val].
    + apply Z.eqb_eq in E. rewrite E in Rc.
      replace 0 with (0 * mono_val m l + 0) at 1 by ring. apply cong_add; [|apply cong_refl].
      apply cong_mul; [exact Rc|apply cong_refl].
    + apply cong_add; [|apply cong_refl]. apply cong_mul; [exact Rc|apply cong_refl].
  - destruct (mono_eqb l l') eqn:E.
    + apply mono_eqb_eq in E as <-. pose proof (red_cong (c + c')) as Rc.
      apply cong_trans with ((c + c') * mono_val m l + poly_val m r);
        [|replace (c * mono_val m l + (c' * mono_val m l + poly_val m r))
            with ((c + c') * mono_val m l + poly_val m r) by ring; apply cong_refl].
      destruct (red (c + c') =? 0) eqn:E0; cbn [poly_val].
      * apply Z.eqb_eq in E0. rewrite E0 in Rc.
        replace (poly_val m r) with (0 * mono_val m l + poly_val m r) at 1 by ring.
        apply cong_add; [|apply cong_refl]. apply cong_mul; [exact Rc|apply cong_refl].
      * apply cong_add; [|apply cong_refl]. apply cong_mul; [exact Rc|apply cong_refl].
    + cbn [poly_val].
      replace (c * mono_val m l + (c' * mono_val m l' + poly_val m r))
        with (c' * mono_val m l' + (c * mono_val m l + poly_val m r)) by ring.
      apply cong_add; [apply cong_refl|exact IH].
Qed.
(** add [s * t * q] (t a monomial) to [p] *)
Fixpoint paddmul (s : Z) (t : mono) (q p : poly) : poly :=
  match q with
  | [] => p
  | (l, c) :: r => padd1 (mono_mul t l) (s * c) (paddmul s t r p)
  end.
Lemma paddmul_val m s t q p :
  cong (poly_val m (paddmul s t q p)) (s * mono_val m t * poly_val m q + poly_val m p).
Proof.
  induction q as [|[l c] r IH]; cbn [paddmul poly_val].
  - replace (s * mono_val m t * 0 + poly_val m p) with (poly_val m p) by ring. apply cong_refl.
  - eapply cong_trans; [apply padd1_val|]. rewrite mono_mul_val.
    replace (s * mono_val m t * (c * mono_val m l + poly_val m r) + poly_val m p)
      with (s * c * (mono_val m t * mono_val m l)
            + (s * mono_val m t * poly_val m r + poly_val m p)) by ring.
    apply cong_add; [apply cong_refl|exact IH].
Qed.
Fixpoint pmul (p q : poly) : poly :=
  match p with
  | [] => []
  | (l, c) :: r => paddmul c l q (pmul r q)
  end.
Lemma pmul_val m p q : cong (poly_val m (pmul p q)) (poly_val m p * poly_val m q).
Proof.
  induction p as [|[l c] r IH]; cbn [pmul poly_val]; [apply cong_refl|].
  eapply cong_trans; [apply paddmul_val|].
  replace ((c * mono_val m l + poly_val m r) * poly_val m q) with
    (c * mono_val m l * poly_val m q + poly_val m r * poly_val m q) by ring.
  apply cong_add; [apply cong_refl|exact IH].
Qed.

(** polynomial of an expression; [None] if it contains a right shift *)
Fixpoint pexp (e : exp) : option poly :=
  match e with
  | V x => Some [([x], 1)]
  | C z => Some [([], z)]
  | Add a b => match pexp a, pexp b with
               | Some p, Some q => Some (paddmul 1 [] p q) | _, _ => None end
  | Sub a b => match pexp a, pexp b with
               | Some p, Some q => Some (paddmul (-1) [] q p) | _, _ => None end
  | Mul a b => match pexp a, pexp b with
               | Some p, Some q => Some (pmul p q) | _, _ => None end
  | Shl a k => match pexp a with
               | Some p => if 0 <=? k then Some (paddmul (2 ^ k) [] p []) else None
               | None => None end
  | Shr _ _ => None
  end.
Lemma pexp_val m e p : pexp e = Some p -> cong (poly_val m p) (evZ m e).
Proof.
  revert p; induction e as [x|z|a IHa b IHb|a IHa b IHb|a IHa b IHb|a IHa k|a IHa k];
    intros p H; cbn [pexp evZ] in *; try discriminate.
  - injection H as <-. cbn [poly_val mono_val].
    replace (1 * (get m x * 1) + 0) with (get m x) by ring. apply cong_refl.
  - injection H as <-. cbn [poly_val mono_val].
    replace (z * 1 + 0) with z by ring. apply cong_refl.
  - destruct (pexp a) as [pa|]; [|discriminate]. destruct (pexp b) as [pb|]; [|discriminate].
    injection H as <-. eapply cong_trans; [apply paddmul_val|]. cbn [mono_val].
    replace (1 * 1 * poly_val m pa) with (poly_val m pa) by ring.
    apply cong_add; [apply IHa|apply IHb]; reflexivity.
  - destruct (pexp a) as [pa|]; [|discriminate]. destruct (pexp b) as [pb|]; [|discriminate].
    injection H as <-. eapply cong_trans; [apply paddmul_val|]. cbn [mono_val].
    replace (-1 * 1 * poly_val m pb + poly_val m pa) with (poly_val m pa + (-1) * poly_val m pb) by ring.
    replace (evZ m a - evZ m b) with (evZ m a + (-1) * evZ m b) by ring.
    apply cong_add; [apply IHa; reflexivity|].
    apply cong_mul; [apply cong_refl|apply IHb; reflexivity].
  - destruct (pexp a) as [pa|]; [|discriminate]. destruct (pexp b) as [pb|]; [|discriminate].
    injection H as <-. eapply cong_trans; [apply pmul_val|].
    apply cong_mul; [apply IHa|apply IHb]; reflexivity.
  - destruct (pexp a) as [pa|]; [|discriminate]. destruct (0 <=? k); [|discriminate].
    injection H as <-. eapply cong_trans; [apply paddmul_val|]. cbn [mono_val poly_val].
    replace (2 ^ k * 1 * poly_val m pa + 0) with (poly_val m pa * 2 ^ k) by ring.
    apply cong_mul; [apply IHa; reflexivity|apply cong_refl].
Qed.

(** split a monomial at a variable: [Some rest] if the variable occurs *)
Fixpoint mono_del (x : positive) (l : mono) : option mono :=
  match l with
  | [] => None
  | y :: r => if Pos.eqb x y then Some r
              else match mono_del x r with Some r' => Some (y :: r') | None => None end
  end.
Lemma mono_del_some m x l r : mono_del x l = Some r -> mono_val m l = get m x * mono_val m r.
Proof.
  revert r; induction l as [|y l IH]; intros r; cbn [mono_del]; [discriminate|].
  destruct (Pos.eqb x y) eqn:E.
  - apply Pos.eqb_eq in E as <-. intros [= <-]. reflexivity.
  - destruct (mono_del x l) as [r'|]; [|discriminate]. intros [= <-]. cbn [mono_val].
    rewrite (IH r' eq_refl). ring.
Qed.
Lemma mono_del_none m x l v : mono_del x l = None -> mono_val (set m x v) l = mono_val m l.
Proof.
  induction l as [|y l IH]; cbn [mono_del]; [reflexivity|].
  destruct (Pos.eqb x y) eqn:E; [discriminate|]. apply Pos.eqb_neq in E.
  destruct (mono_del x l); [discriminate|]. intros _. cbn [mono_val].
  rewrite get_set_neq by congruence. rewrite IH by reflexivity. reflexivity.
Qed.

(** substitute [x := q] once in [p] (fails if x occurs twice in a monomial and [q] is given
    lazily: the second occurrence is substituted by a second pass, see [subst]) *)
Fixpoint split_at (x : positive) (p : poly) : poly * poly :=   (* (coefficients of x, rest) *)
  match p with
  | [] => ([], [])
  | (l, c) :: r =>
      let (a, b) := split_at x r in
      match mono_del x l with
      | Some l' => ((l', c) :: a, b)
      | None => (a, (l, c) :: b)
      end
  end.
Lemma split_at_val m x p a b :
  split_at x p = (a, b) -> poly_val m p = get m x * poly_val m a + poly_val m b.
Proof.
  revert a b; induction p as [|[l c] r IH]; intros a b; cbn [split_at].
  - intros [= <- <-]. cbn. ring.
  - destruct (split_at x r) as [a' b']. destruct (mono_del x l) as [l'|] eqn:E; intros [= <- <-];
      cbn [poly_val]; rewrite (IH a' b' eq_refl).
    + rewrite (mono_del_some m _ _ _ E). ring.
    + ring.
Qed.
Definition free_of (x : positive) (p : poly) : bool :=
  forallb (fun '(l, _) => match mono_del x l with Some _ => false | None => true end) p.
Lemma free_of_val m x p v : free_of x p = true -> poly_val (set m x v) p = poly_val m p.
Proof.
  induction p as [|[l c] r IH]; cbn [free_of forallb poly_val]; [reflexivity|].
  intros H. apply andb_prop in H as [H1 H2]. rewrite IH by exact H2.
  destruct (mono_del x l) eqn:E; [discriminate|]. rewrite mono_del_none by exact E. reflexivity.
Qed.

(** weakest-precondition polynomial of one assignment; monomials of degree <= 2 in the
    assigned variable are supported *)
Definition subst (x : positive) (q : poly) (p : poly) : option poly :=
  let (a, b) := split_at x p in
  let (a2, a1) := split_at x a in
  if free_of x b && free_of x a1 && free_of x a2 then
    Some (match a2 with
          | [] => fold_right (fun '(l, c) acc => paddmul c l q acc) b a1
          | _ => fold_right (fun '(l, c) acc => paddmul c l q acc)
                   (fold_right (fun '(l, c) acc => paddmul c l (pmul q q) acc) b a2) a1
          end)
  else None.
Lemma fold_paddmul_val m q a b :
  cong (poly_val m (fold_right (fun '(l, c) acc => paddmul c l q acc) b a))
       (poly_val m a * poly_val m q + poly_val m b).
Proof.
  induction a as [|[l c] a IH]; cbn [fold_right poly_val].
  - apply cong_refl.
  - eapply cong_trans; [apply paddmul_val|].
    replace ((c * mono_val m l + poly_val m a) * poly_val m q + poly_val m b)
      with (c * mono_val m l * poly_val m q + (poly_val m a * poly_val m q + poly_val m b)) by ring.
    apply cong_add; [apply cong_refl|exact IH].
Qed.
Lemma subst_val m x q p p' v :
  subst x q p = Some p' -> cong (poly_val m q) v ->
  cong (poly_val m p') (poly_val (set m x v) p).
Proof.
  unfold subst. destruct (split_at x p) as [a b] eqn:Ep. destruct (split_at x a) as [a2 a1] eqn:Ea.
  destruct (free_of x b && free_of x a1 && free_of x a2) eqn:F; [|discriminate].
  apply andb_prop in F as [F F3]. apply andb_prop in F as [F1 F2].
  intros H Hq. injection H as H.
  assert (E : poly_val (set m x v) p = v * (v * poly_val m a2 + poly_val m a1) + poly_val m b).
  { rewrite (split_at_val _ _ _ _ _ Ep), (split_at_val _ _ _ _ _ Ea), get_set_eq.
    rewrite !free_of_val by assumption. reflexivity. }
  rewrite E. clear E Ep Ea.
  assert (G : cong (poly_val m p') (poly_val m a1 * poly_val m q + (poly_val m a2 * (poly_val m q * poly_val m q) + poly_val m b))).
  { subst p'. destruct a2 as [|t a2].
    - eapply cong_trans; [apply fold_paddmul_val|]. cbn [poly_val].
      replace (0 * (poly_val m q * poly_val m q) + poly_val m b) with (poly_val m b) by ring.
      apply cong_refl.
    - eapply cong_trans; [apply fold_paddmul_val|]. apply cong_add; [apply cong_refl|].
      eapply cong_trans; [apply fold_paddmul_val|]. apply cong_add; [|apply cong_refl].
      apply cong_mul; [apply cong_refl|apply pmul_val]. }
  eapply cong_trans; [exact G|].
  replace (v * (v * poly_val m a2 + poly_val m a1) + poly_val m b)
    with (poly_val m a1 * v + (poly_val m a2 * (v * v) + poly_val m b)) by ring.
  apply cong_add; [apply cong_mul; [apply cong_refl|exact Hq]|].
  apply cong_add; [|apply cong_refl]. apply cong_mul; [apply cong_refl|].
  apply cong_mul; exact Hq.
Qed.

Definition wp1 (i : instr) (p : poly) : option poly :=
  if free_of (lhs i) p then Some p
  else match pexp (rhs i) with Some q => subst (lhs i) q p | None => None end.
Fixpoint wp (pr : prog) (p : poly) : option poly :=
  match pr with
  | [] => Some p
  | i :: r => match wp r p with Some p' => wp1 i p' | None => None end
  end.

Theorem wp_sound pr p p' m :
  wp pr p = Some p' -> cong (poly_val m p') (poly_val (runZ pr m) p).
Proof.
  revert p' m. induction pr as [|[x e] pr IH]; intros p' m; cbn [wp runZ].
  - intros [= <-]. apply cong_refl.
  - destruct (wp pr p) as [p1|] eqn:E; [|discriminate]. unfold wp1; cbn [lhs rhs].
    intros H. apply cong_trans with (poly_val (set m x (evZ m e)) p1); [|apply IH; reflexivity].
    destruct (free_of x p1) eqn:F.
    + injection H as <-. rewrite free_of_val by exact F. apply cong_refl.
    + destruct (pexp e) as [q|] eqn:Q; [|discriminate].
      eapply subst_val; [exact H|]. apply pexp_val, Q.
Qed.

(** difference of two polynomials vanishes modulo [md] *)
Definition pzero (p : poly) : bool := forallb (fun '(_, c) => red c =? 0) p.
Lemma pzero_val m p : pzero p = true -> cong (poly_val m p) 0.
Proof.
  induction p as [|[l c] r IH]; cbn [pzero forallb poly_val]; intros H; [apply cong_refl|].
  apply andb_prop in H as [H1 H2]. apply Z.eqb_eq in H1.
  replace 0 with (0 * mono_val m l + 0) at 1 by ring. apply cong_add; [|apply IH, H2].
  apply cong_mul; [|apply cong_refl]. rewrite <- H1. apply cong_sym, red_cong.
Qed.

(** [check_poly pr outs target]: after running [pr], [outs] is congruent to the value of
    [target] before the run. *)
Definition check_poly (pr : prog) (outs target : poly) : bool :=
  match wp pr outs with
  | Some p => pzero (paddmul (-1) [] target p)
  | None => false
  end.
Theorem check_poly_sound pr outs target m :
  check_poly pr outs target = true ->
  cong (poly_val (runZ pr m) outs) (poly_val m target).
Proof.
  unfold check_poly. destruct (wp pr outs) as [p|] eqn:E; [|discriminate]. intros H.
  apply (pzero_val m) in H.
  pose proof (paddmul_val m (-1) [] target p) as H1. cbn [mono_val] in H1.
  pose proof (wp_sound _ _ _ m E) as H2.
  apply cong_trans with (poly_val m p); [apply cong_sym, H2|].
  pose proof (cong_trans _ _ _ (cong_sym _ _ H1) H) as H3.
  unfold cong in *. destruct H3 as [k Hk]. exists k. lia.
Qed.
End Wp.

(** Variables not assigned keep their value. *)
Lemma runZ_frame pr m x :
  forallb (fun i => negb (Pos.eqb (lhs i) x)) pr = true -> get (runZ pr m) x = get m x.
Proof.
  revert m; induction pr as [|[y e] pr IH]; intros m H; cbn [runZ forallb lhs] in *; [reflexivity|].
  apply andb_prop in H as [H1 H2]. rewrite IH by exact H2.
  apply negb_true_iff, Pos.eqb_neq in H1. now rewrite get_set_neq.
Qed.
