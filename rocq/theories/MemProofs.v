(** Proofs about [MemModel]: uninterrupted runs of the API programs refine [ApiModel]. *)
From Coq Require Import List ZArith Lia Bool Arith.
From Verif Require Import GoBase FieldModel ScalarModel GroupModel ApiModel ApiSpec MemModel MemSpec.
Import ListNotations.
Open Scope nat_scope.

(** ** Runs *)
Lemma exec_bind {A B} (p : prog A) (f : A -> prog B) : forall m,
  exec (bindp p f) m = match exec p m with
                       | (Ok a, m') => exec (f a) m'
                       | (Err e, m') => (Err e, m')
                       | (Panic, m') => (Panic, m')
                       end.
Proof.
  induction p as [r|a i k IH|a i v k IH|n k IH]; intros m; cbn [bindp exec].
  - destruct r; reflexivity.
  - destruct (cell m a i); [apply IH|reflexivity].
  - destruct (cell m a i); [apply IH|reflexivity].
  - apply IH.
Qed.
Lemma quiet_bind {A B} (p : prog A) (f : A -> prog B) : forall m,
  quiet p m -> (forall a m', exec p m = (Ok a, m') -> quiet (f a) m') -> quiet (bindp p f) m.
Proof.
  induction p as [r|a i k IH|a i v k IH|n k IH]; intros m Q F; cbn [bindp quiet exec] in *.
  - destruct r as [a|e|]; [apply F; reflexivity|exact I|exact I].
  - destruct (cell m a i); [|exact I]. apply IH; assumption.
  - destruct Q as (N & Q). split; [exact N|]. destruct (cell m a i); [|exact I]. apply IH; assumption.
  - apply IH; assumption.
Qed.

(** ** Lists *)
Lemma set_nth_length {A} (l : list A) i v : i < length l -> length (set_nth l i v) = length l.
Proof.
  intros L. unfold set_nth. rewrite app_length, firstn_length. cbn [length]. rewrite skipn_length. lia.
Qed.
Lemma set_nth_app_last {A} (l : list A) x v : set_nth (l ++ [x]) (length l) v = l ++ [v].
Proof.
  unfold set_nth. rewrite firstn_app, Nat.sub_diag, firstn_all, firstn_O, app_nil_r.
  rewrite skipn_all2 by (rewrite app_length; cbn; lia). reflexivity.
Qed.
Lemma set_nth_same {A} (l : list A) i v : i < length l -> nth_error (set_nth l i v) i = Some v.
Proof.
  intros L. unfold set_nth. rewrite nth_error_app2 by (rewrite firstn_length; lia).
  rewrite firstn_length. replace (i - Nat.min i (length l)) with 0 by lia. reflexivity.
Qed.
Lemma set_nth_S {A} (x : A) l i v : set_nth (x :: l) (S i) v = x :: set_nth l i v.
Proof. reflexivity. Qed.
Lemma set_nth_other {A} (l : list A) : forall i j v, i < length l -> i <> j -> nth_error (set_nth l i v) j = nth_error l j.
Proof.
  induction l as [|x l IH]; intros i j v L N; [cbn in L; lia|].
  destruct i as [|i]; [destruct j; [lia|reflexivity]|]. rewrite set_nth_S.
  destruct j as [|j]; [reflexivity|]. cbn. apply IH; cbn in L; lia.
Qed.
Lemma nth_error_lt {A} (l : list A) i : i < length l -> exists x, nth_error l i = Some x.
Proof. intros L. destruct (nth_error l i) eqn:E; [eauto|]. apply nth_error_None in E. lia. Qed.
Lemma nth_error_last {A} (l : list A) x : nth_error (l ++ [x]) (length l) = Some x.
Proof. rewrite nth_error_app2 by lia. rewrite Nat.sub_diag. reflexivity. Qed.
Lemma nth_last {A} (l : list A) x d : nth (length l) (l ++ [x]) d = x.
Proof. rewrite app_nth2 by lia. rewrite Nat.sub_diag. reflexivity. Qed.

(** ** Reading *)
Lemma arr_of m a l : arr m a = Some l -> array_of m a = l.
Proof. intros E. unfold array_of. rewrite E. reflexivity. Qed.
Lemma wf_arr m s : wf_sl m s -> exists l, arr m (s_arr s) = Some l /\ array_of m (s_arr s) = l /\ s_off s + s_cap s <= length l.
Proof.
  intros (N & L1 & L2). destruct (arr m (s_arr s)) as [l|] eqn:E; [|contradiction].
  exists l. rewrite (arr_of _ _ _ E) in *. auto.
Qed.
Lemma rd_length m s : wf_sl m s -> length (rd m s) = s_len s.
Proof. intros (N & L1 & L2). unfold rd. rewrite firstn_length, skipn_length. lia. Qed.
Lemma skipn_cons {A} (l : list A) : forall i x, nth_error l i = Some x -> skipn i l = x :: skipn (S i) l.
Proof.
  induction l as [|y l IH]; intros [|i] x E; cbn in *; try discriminate.
  - congruence.
  - apply IH. exact E.
Qed.
Lemma read_from_ok a m l n : forall i, arr m a = Some l -> i + n <= length l ->
  exec (read_from a i n) m = (Ok (firstn n (skipn i l)), m) /\ quiet (read_from a i n) m.
Proof.
  induction n as [|n IH]; intros i E L; [split; [reflexivity|exact I]|].
  destruct (nth_error_lt l i) as (x & X); [lia|].
  destruct (IH (S i) E ltac:(lia)) as (E1 & Q1).
  assert (C : cell m a i = Some x) by (unfold cell; rewrite E; exact X).
  cbn [read_from exec quiet]. rewrite C. split.
  - rewrite exec_bind, E1. cbn [exec ret]. rewrite (skipn_cons l i x X). reflexivity.
  - apply quiet_bind; [exact Q1|]. intros; exact I.
Qed.
Lemma read_ok m s : wf_sl m s -> exec (read s) m = (Ok (rd m s), m) /\ quiet (read s) m.
Proof.
  intros W. destruct (wf_arr m s W) as (l & E & E' & L). destruct W as (_ & L1 & _).
  unfold read, rd. rewrite E'. apply read_from_ok; [exact E|lia].
Qed.
Lemma idx_ok m s i : wf_sl m s -> i < s_len s -> exec (idx s i) m = (Ok (byte_at (rd m s) i), m) /\ quiet (idx s i) m.
Proof.
  intros W L. destruct (wf_arr m s W) as (l & E & E' & L'). destruct W as (_ & L1 & _).
  unfold idx. replace (i <? s_len s) with true by (symmetry; apply Nat.ltb_lt; exact L).
  cbn [exec quiet]. destruct (nth_error_lt l (s_off s + i)) as (x & X); [lia|].
  assert (C : cell m (s_arr s) (s_off s + i) = Some x) by (unfold cell; rewrite E; exact X).
  rewrite C. split; [|exact I]. cbn. f_equal. f_equal. unfold byte_at, rd. rewrite E'.
  symmetry. rewrite <- (firstn_skipn (s_off s) l) in X.
  rewrite nth_error_app2 in X by (rewrite firstn_length; lia). rewrite firstn_length in X.
  replace (s_off s + i - Nat.min (s_off s) (length l)) with i in X by lia.
  apply nth_error_nth. rewrite <- X. symmetry.
  rewrite <- (firstn_skipn (s_len s) (skipn (s_off s) l)) at 1.
  rewrite nth_error_app1; [reflexivity|]. rewrite firstn_length, skipn_length. lia.
Qed.
Lemma idx_panic m s i : s_len s <= i -> exec (idx s i) m = (Panic, m) /\ quiet (idx s i) m.
Proof.
  intros L. unfold idx. replace (i <? s_len s) with false by (symmetry; apply Nat.ltb_ge; exact L). split; [reflexivity|exact I].
Qed.

(** ** New arrays and writes to the last one *)
Definition last_own (m : mem) : addr := Own (length (m_own m)).
Definition over (l : bytes) (i : nat) (d : bytes) : bytes := firstn i l ++ d ++ skipn (i + length d) l.
Lemma arr_push m l : arr (push m l) (last_own m) = Some l.
Proof. cbn. apply nth_error_last. Qed.
Lemma set_cell_push m l i v : set_cell (push m l) (last_own m) i v = push m (set_nth l i v).
Proof. unfold last_own, push. cbn. rewrite nth_last, set_nth_app_last. reflexivity. Qed.
Lemma over_cons l i v d : i < length l -> over (set_nth l i v) (S i) d = over l i (v :: d).
Proof.
  intros L. unfold over, set_nth.
  assert (F : firstn (S i) (firstn i l ++ v :: skipn (S i) l) = firstn i l ++ [v]).
  { rewrite firstn_app, firstn_length. replace (S i - Nat.min i (length l)) with 1 by lia.
    rewrite firstn_all2 by (rewrite firstn_length; lia). reflexivity. }
  rewrite F. rewrite <- app_assoc. cbn [app]. f_equal. f_equal. f_equal.
  rewrite skipn_app, firstn_length. rewrite skipn_all2 by (rewrite firstn_length; lia). cbn [app].
  replace (S i + length d - Nat.min i (length l)) with (S (length d)) by lia.
  cbn [skipn length]. 
  clear. revert i d. induction l as [|x l IH]; intros i d.
  - rewrite !skipn_nil. reflexivity.
  - destruct i as [|i]; [reflexivity|]. cbn [skipn Nat.add]. rewrite <- IH. reflexivity.
Qed.
Lemma over_length l i d : i + length d <= length l -> length (over l i d) = length l.
Proof. intros L. unfold over. rewrite !app_length, firstn_length, skipn_length. lia. Qed.
Lemma write_push {A} m (k : prog A) d : forall l i, i + length d <= length l ->
  exec (write_from (last_own m) i d k) (push m l) = exec k (push m (over l i d)) /\
  (quiet k (push m (over l i d)) -> quiet (write_from (last_own m) i d k) (push m l)).
Proof.
  induction d as [|v d IH]; intros l i L.
  - unfold over. cbn [length app write_from]. rewrite Nat.add_0_r, firstn_skipn. auto.
  - cbn [length] in L. destruct (nth_error_lt l i) as (x & X); [lia|].
    assert (C : cell (push m l) (last_own m) i = Some x) by (unfold cell; rewrite arr_push; exact X).
    cbn [write_from exec quiet]. rewrite C, set_cell_push.
    destruct (IH (set_nth l i v) (S i)) as (E & Q); [rewrite set_nth_length; lia|].
    rewrite E, over_cons by lia. split; [reflexivity|].
    intros K. split; [intros n; unfold last_own; discriminate|]. apply Q. rewrite over_cons by lia. exact K.
Qed.
Lemma over_repeat d n : length d <= n -> over (repeat 0%Z n) 0 d = d ++ repeat 0%Z (n - length d).
Proof.
  intros L. unfold over. cbn [firstn Nat.add app]. f_equal.
  replace n with (length d + (n - length d)) at 1 by lia. rewrite repeat_app, skipn_app.
  rewrite repeat_length, Nat.sub_diag, skipn_all2 by (rewrite repeat_length; lia). reflexivity.
Qed.
Lemma fresh_exec m d x :
  exec (fresh d x) m = (Ok (SL (last_own m) 0 (length d) (length d + x)), push m (d ++ repeat 0%Z x)) /\ quiet (fresh d x) m.
Proof.
  unfold fresh. cbn [exec quiet]. change (Own (length (m_own m))) with (last_own m).
  destruct (write_push m (ret (SL (last_own m) 0 (length d) (length d + x))) d (repeat 0%Z (length d + x)) 0) as (E & Q);
    [rewrite repeat_length; lia|].
  rewrite over_repeat in E by lia. replace (length d + x - length d) with x in E by lia.
  split; [exact E|]. apply Q. exact I.
Qed.

(** ** Growing memory *)
Lemma grows_refl m : grows m m.
Proof. split; [reflexivity|]. exists []. rewrite app_nil_r. reflexivity. Qed.
Lemma grows_trans m1 m2 m3 : grows m1 m2 -> grows m2 m3 -> grows m1 m3.
Proof.
  intros (S1 & n1 & E1) (S2 & n2 & E2). split; [congruence|]. exists (n1 ++ n2). rewrite E2, E1, app_assoc. reflexivity.
Qed.
Lemma grows_push m l : grows m (push m l).
Proof. split; [reflexivity|]. exists [l]. reflexivity. Qed.
Lemma grows_arr m m' a : grows m m' -> arr m a <> None -> arr m' a = arr m a.
Proof.
  intros (S1 & n & E) N. destruct a as [i|i]; cbn in *.
  - rewrite S1. reflexivity.
  - rewrite E. apply nth_error_app1. apply nth_error_Some. exact N.
Qed.
Lemma grows_wf m m' s : grows m m' -> wf_sl m s -> wf_sl m' s.
Proof.
  intros G (N & L). unfold wf_sl, array_of. rewrite (grows_arr _ _ _ G N). split; [exact N|exact L].
Qed.
Lemma grows_rd m m' s : grows m m' -> wf_sl m s -> rd m' s = rd m s.
Proof. intros G (N & L). unfold rd, array_of. rewrite (grows_arr _ _ _ G N). reflexivity. Qed.
Lemma grows_len m m' : grows m m' -> length (m_own m) <= length (m_own m').
Proof. intros (_ & n & E). rewrite E, app_length. lia. Qed.
Lemma is_new_grows m m' s : grows m m' -> is_new m' s -> is_new m s.
Proof. intros G (n & E & L). exists n. split; [exact E|]. pose proof (grows_len _ _ G). lia. Qed.

(** ** Refinement *)
Definition refines {A X} (p : prog A) (m : mem) (v : res X) (R : A -> X -> mem -> Prop) : Prop :=
  quiet p m /\ grows m (snd (exec p m)) /\ agrees R (fst (exec p m)) v (snd (exec p m)).

Lemma ref_ret {A X} (a : A) m (x : X) (R : A -> X -> mem -> Prop) : R a x m -> refines (ret a) m (Ok x) R.
Proof. intros K. split; [exact I|]. split; [apply grows_refl|exact K]. Qed.
Lemma ref_err {A X} e m (R : A -> X -> mem -> Prop) : refines (Ret (Err e)) m (Err e) R.
Proof. split; [exact I|]. split; [apply grows_refl|reflexivity]. Qed.
Lemma ref_panic {A X} m (R : A -> X -> mem -> Prop) : refines (Ret Panic) m Panic R.
Proof. split; [exact I|]. split; [apply grows_refl|exact I]. Qed.
Lemma ref_bind {A B X Y} (p : prog A) (f : A -> prog B) m (v : res X) (g : X -> res Y) R R' :
  refines p m v R ->
  (forall a x m', grows m m' -> R a x m' -> refines (f a) m' (g x) R') ->
  refines (bindp p f) m (bind v g) R'.
Proof.
  intros (Q & G & K) F. destruct (exec p m) as [r m'] eqn:E. cbn [fst snd] in *.
  split.
  - apply quiet_bind; [exact Q|]. intros a m1 E1. rewrite E in E1. injection E1 as -> ->.
    destruct v as [x|e|]; cbn in K; try contradiction. apply (F a x m1 G K).
  - rewrite exec_bind, E. destruct r as [a|e|], v as [x|e'|]; cbn in K; try contradiction; cbn [bind fst snd agrees].
    + destruct (F a x m' G K) as (_ & G' & K'). split; [exact (grows_trans _ _ _ G G')|exact K'].
    + split; [exact G|exact K].
    + split; [exact G|exact I].
Qed.
Lemma ref_imp {A X} (p : prog A) m (v : res X) (R R' : A -> X -> mem -> Prop) :
  refines p m v R -> (forall a x m', grows m m' -> R a x m' -> R' a x m') -> refines p m v R'.
Proof.
  intros (Q & G & K) F. split; [exact Q|]. split; [exact G|].
  destruct (fst (exec p m)), v; cbn in *; auto.
Qed.
(** programs whose run is known *)
Lemma ref_exec {A X} (p : prog A) m a m' (x : X) (R : A -> X -> mem -> Prop) :
  exec p m = (Ok a, m') -> quiet p m -> grows m m' -> R a x m' -> refines p m (Ok x) R.
Proof. intros E Q G K. split; [exact Q|]. rewrite E. split; [exact G|exact K]. Qed.
Definition same {A} (m0 : mem) (a x : A) (m : mem) : Prop := a = x /\ m = m0.
Lemma ref_lift {A} (r : res A) m : refines (lift r) m r (same m).
Proof.
  split; [exact I|]. split; [apply grows_refl|]. destruct r; cbn; [split; reflexivity|reflexivity|exact I].
Qed.
Lemma ref_read m s : wf_sl m s -> refines (read s) m (Ok (rd m s)) (same m).
Proof.
  intros W. destruct (read_ok m s W) as (E & Q). eapply ref_exec; [exact E|exact Q|apply grows_refl|split; reflexivity].
Qed.
(** binding a step whose value is a plain [let] in the byte string model *)
Lemma ref_let {A B X Y} (p : prog A) (f : A -> prog B) m (x : X) (v : res Y) R R' :
  refines p m (Ok x) R ->
  (forall a m', grows m m' -> R a x m' -> refines (f a) m' v R') ->
  refines (bindp p f) m v R'.
Proof.
  intros P F. change v with (bind (Ok x) (fun _ => v)).
  apply (ref_bind p f m (Ok x) (fun _ => v) (fun a y m' => y = x /\ R a x m') R').
  - destruct P as (Q & G & K). split; [exact Q|]. split; [exact G|]. destruct (fst (exec p m)); cbn in *; auto.
  - intros a y m' G (-> & K). apply F; assumption.
Qed.

(** a slice in a new array that shows [b] *)
Definition shows (m0 : mem) (s : sl) (b : bytes) (m : mem) : Prop :=
  wf_sl m s /\ rd m s = b /\ is_new m0 s.
Lemma shows_fresh m d x : shows m (SL (last_own m) 0 (length d) (length d + x)) d (push m (d ++ repeat 0%Z x)).
Proof.
  unfold shows, wf_sl, rd, array_of. cbn [s_arr s_off s_len s_cap]. rewrite arr_push.
  rewrite app_length, repeat_length. split; [split; [discriminate|lia]|]. split.
  - cbn [skipn]. rewrite firstn_app, Nat.sub_diag, firstn_all. cbn. apply app_nil_r.
  - exists (length (m_own m)). split; [reflexivity|lia].
Qed.
Lemma ref_fresh m d x : refines (fresh d x) m (Ok d) (fun s b m' => shows m s b m' /\ s_cap s = length b + x).
Proof.
  destruct (fresh_exec m d x) as (E & Q). eapply ref_exec; [exact E|exact Q|apply grows_push|].
  split; [apply shows_fresh|reflexivity].
Qed.
Lemma shows_grows m0 m m' s b : grows m m' -> shows m0 s b m -> shows m0 s b m'.
Proof.
  intros G (W & E & N). split; [exact (grows_wf _ _ _ G W)|]. split; [|exact N]. rewrite (grows_rd _ _ _ G W). exact E.
Qed.
Lemma shows_older m0 m1 m s b : grows m0 m1 -> shows m1 s b m -> shows m0 s b m.
Proof. intros G (W & E & N). split; [exact W|]. split; [exact E|exact (is_new_grows _ _ _ G N)]. Qed.
Lemma shows_len m0 s b m : shows m0 s b m -> s_len s = length b.
Proof. intros (W & E & _). rewrite <- E. symmetry. apply rd_length. exact W. Qed.
