(** Proofs: the API programs of [MemModel], run without interruption, refine the functions of
    [ApiModel] on the bytes the arguments show, and change nothing that existed. *)
From Coq Require Import List ZArith Lia Bool Arith.
From Verif Require Import GoBase FieldModel ScalarModel GroupModel ApiModel ApiSpec MemModel MemSpec MemProofs.
Import ListNotations.
Open Scope nat_scope.

(** ** Bytes *)
Lemma set_nth_upd l : forall i v, i < length l -> set_nth l i v = upd l i v.
Proof.
  induction l as [|x l IH]; intros [|i] v L; cbn [length] in L; try lia; [reflexivity|].
  change (set_nth (x :: l) (S i) v) with (x :: set_nth l i v). rewrite IH by lia. reflexivity.
Qed.
Lemma upd_length l : forall i v, length (upd l i v) = length l.
Proof. induction l as [|x l IH]; intros [|i] v; cbn; auto. Qed.
Lemma upd_app l r : forall i v, i < length l -> upd (l ++ r) i v = upd l i v ++ r.
Proof. induction l as [|x l IH]; intros [|i] v L; cbn in *; try lia; [reflexivity|]. rewrite IH by lia. reflexivity. Qed.
Lemma byte_at_app l r i : i < length l -> byte_at (l ++ r) i = byte_at l i.
Proof. intros L. apply app_nth1. exact L. Qed.
Lemma fe_encode_32 f : length (fe_encode f) = 32.
Proof. unfold fe_encode. generalize (fe_modP f). intros g. destruct g. reflexivity. Qed.

(** ** A byte read, changed and written back, in the newest array *)
Lemma wf_push m l off len cap : len <= cap -> off + cap <= length l -> wf_sl (push m l) (SL (last_own m) off len cap).
Proof.
  intros L1 L2. unfold wf_sl, array_of. cbn [s_arr s_off s_len s_cap]. rewrite arr_push. split; [discriminate|lia].
Qed.
Lemma rd_push m l off len cap : rd (push m l) (SL (last_own m) off len cap) = firstn len (skipn off l).
Proof. unfold rd, array_of. cbn [s_arr s_off s_len]. rewrite arr_push. reflexivity. Qed.
Lemma new_push m off len cap : is_new m (SL (last_own m) off len cap).
Proof. exists (length (m_own m)). split; [reflexivity|lia]. Qed.
Lemma set_push {A} m l off len cap i v (k : unit -> prog A) : i < len -> off + i < length l ->
  exec (bindp (set (SL (last_own m) off len cap) i v) k) (push m l) = exec (k tt) (push m (set_nth l (off + i) v)) /\
  (quiet (k tt) (push m (set_nth l (off + i) v)) -> quiet (bindp (set (SL (last_own m) off len cap) i v) k) (push m l)).
Proof.
  intros L1 L2. unfold set. cbn [s_arr s_off s_len s_cap].
  replace (i <? len) with true by (symmetry; apply Nat.ltb_lt; exact L1).
  destruct (nth_error_lt l (off + i) L2) as (x & X).
  assert (C : cell (push m l) (last_own m) (off + i) = Some x) by (unfold cell; rewrite arr_push; exact X).
  cbn [bindp exec quiet ret]. rewrite C, set_cell_push. split; [reflexivity|].
  intros K. split; [intros n; unfold last_own; discriminate|exact K].
Qed.
Lemma idx_push {A} m l off len cap i (k : Z -> prog A) : i < len -> off + i < length l ->
  exec (bindp (idx (SL (last_own m) off len cap) i) k) (push m l) = exec (k (byte_at l (off + i))) (push m l) /\
  (quiet (k (byte_at l (off + i))) (push m l) -> quiet (bindp (idx (SL (last_own m) off len cap) i) k) (push m l)).
Proof.
  intros L1 L2. unfold idx. cbn [s_arr s_off s_len s_cap].
  replace (i <? len) with true by (symmetry; apply Nat.ltb_lt; exact L1).
  destruct (nth_error_lt l (off + i) L2) as (x & X).
  assert (C : cell (push m l) (last_own m) (off + i) = Some x) by (unfold cell; rewrite arr_push; exact X).
  cbn [bindp exec quiet ret]. rewrite C. unfold byte_at. rewrite (nth_error_nth _ _ 0%Z X). auto.
Qed.
Lemma rmw {A} m l off len cap i f (k : unit -> prog A) : i < len -> off + i < length l ->
  let p := bindp (idx (SL (last_own m) off len cap) i) (fun v => bindp (set (SL (last_own m) off len cap) i (f v)) k) in
  let m' := push m (upd l (off + i) (f (byte_at l (off + i)))) in
  exec p (push m l) = exec (k tt) m' /\ (quiet (k tt) m' -> quiet p (push m l)).
Proof.
  intros L1 L2 p m'. unfold p, m'.
  destruct (idx_push m l off len cap i (fun v => bindp (set (SL (last_own m) off len cap) i (f v)) k) L1 L2) as (E1 & Q1).
  destruct (set_push m l off len cap i (f (byte_at l (off + i))) k L1 L2) as (E2 & Q2).
  rewrite set_nth_upd in * by exact L2. split; [rewrite E1; exact E2|auto].
Qed.

(** ** Programs that turn errors into something else *)
Lemma must_ok {A} (p : prog A) : forall m,
  exec (must p) m = (unwrap (fst (exec p m)), snd (exec p m)) /\ (quiet p m -> quiet (must p) m).
Proof.
  induction p as [r|a i k IH|a i v k IH|n k IH]; intros m; cbn [must exec quiet].
  - split; [reflexivity|auto].
  - destruct (cell m a i); [|split; auto]. split; [apply IH|apply IH].
  - destruct (cell m a i); [|split; auto]. split; [apply IH|]. intros (N & Q). split; [exact N|]. apply IH. exact Q.
  - split; [apply IH|apply IH].
Qed.
Lemma ref_must {A X} (p : prog A) m (v : res X) R : refines p m v R -> refines (must p) m (unwrap v) R.
Proof.
  intros (Q & G & K). destruct (must_ok p m) as (E & Q'). split; [exact (Q' Q)|]. rewrite E. cbn [fst snd].
  split; [exact G|]. destruct (fst (exec p m)), v; cbn in *; try contradiction; auto.
Qed.
Lemma false_ok (p : prog bool) : forall m,
  exec (false_on_error p) m = (or_false (fst (exec p m)), snd (exec p m)) /\ (quiet p m -> quiet (false_on_error p) m).
Proof.
  induction p as [r|a i k IH|a i v k IH|n k IH]; intros m; cbn [false_on_error exec quiet].
  - split; [reflexivity|auto].
  - destruct (cell m a i); [|split; auto]. split; [apply IH|apply IH].
  - destruct (cell m a i); [|split; auto]. split; [apply IH|]. intros (N & Q). split; [exact N|]. apply IH. exact Q.
  - split; [apply IH|apply IH].
Qed.
Definition is {A} (a x : A) (m : mem) : Prop := a = x.
Lemma ref_false (p : prog bool) m v : refines p m v is -> refines (false_on_error p) m (or_false v) is.
Proof.
  intros (Q & G & K). destruct (false_ok p m) as (E & Q'). split; [exact (Q' Q)|]. rewrite E. cbn [fst snd].
  split; [exact G|]. destruct (fst (exec p m)), v; cbn in *; try contradiction; auto. reflexivity.
Qed.

(** ** Slices as arguments *)
Definition holds (m : mem) (s : sl) (b : bytes) : Prop := wf_sl m s /\ rd m s = b.
Lemma holds_grows m m' s b : grows m m' -> holds m s b -> holds m' s b.
Proof. intros G (W & E). split; [exact (grows_wf _ _ _ G W)|]. rewrite (grows_rd _ _ _ G W). exact E. Qed.
Lemma holds_len m s b : holds m s b -> s_len s = length b.
Proof. intros (W & E). rewrite <- E. symmetry. apply rd_length. exact W. Qed.
Lemma shows_holds m0 s b m : shows m0 s b m -> holds m s b.
Proof. intros (W & E & _). split; assumption. Qed.
Lemma ref_readh m s b : holds m s b -> refines (read s) m (Ok b) (same m).
Proof. intros (W & <-). apply ref_read. exact W. Qed.

Lemma lift_ok {A B} (a : A) (f : A -> prog B) : bindp (lift (Ok a)) f = f a.
Proof. reflexivity. Qed.

(** ** Encoded elements *)
Definition that (m0 : mem) (s0 : sl) (b0 : bytes) (s : sl) (b : bytes) (m : mem) : Prop := s = s0 /\ b = b0 /\ m = m0.
Lemma ref_efe m s b : holds m s b -> refines (efe s) m (new_efe b) (that m s b).
Proof.
  intros K. unfold efe, new_efe. rewrite (holds_len _ _ _ K).
  destruct ((length b =? 32) || (length b =? 64)); [apply ref_ret; repeat split|apply ref_err].
Qed.
Lemma ref_ege m s b : holds m s b -> refines (ege s) m (new_ege b) (that m s b).
Proof.
  intros K. unfold ege, new_ege. rewrite (holds_len _ _ _ K).
  destruct (length b =? 32); [apply ref_ret; repeat split|apply ref_err].
Qed.
(** new arrays without spare capacity *)
Definition tight (m0 : mem) (s : sl) (b : bytes) (m : mem) : Prop := shows m0 s b m /\ s_cap s = length b.
Lemma ref_tight m d : refines (fresh d 0) m (Ok d) (tight m).
Proof.
  eapply ref_imp; [apply ref_fresh|]. intros s b m' _ (Sh & C). split; [exact Sh|]. rewrite C. lia.
Qed.
Lemma ref_eta {A X} (p : prog A) m (v : res X) R : refines p m (bind v (fun x => Ok x)) R -> refines p m v R.
Proof. destruct v; exact (fun K => K). Qed.
Lemma ref_modQ m e b : holds m e b -> refines (modQ e) m (sc_modQ b) (tight m).
Proof.
  intros K. unfold modQ. eapply ref_let; [exact (ref_readh _ _ _ K)|]. intros a m' G (-> & ->).
  apply ref_eta. eapply ref_bind; [apply ref_lift|]. intros r x m' G' (-> & ->). apply ref_tight.
Qed.
Lemma ref_mulAdd m s1 b1 s2 b2 s3 b3 : holds m s1 b1 -> holds m s2 b2 -> holds m s3 b3 ->
  refines (mulAdd s1 s2 s3) m (sc_mulAdd b1 b2 b3) (tight m).
Proof.
  intros K1 K2 K3. unfold mulAdd.
  eapply ref_let; [exact (ref_readh _ _ _ K1)|]. intros a m' G (-> & ->).
  eapply ref_let; [exact (ref_readh _ _ _ K2)|]. intros a m' G' (-> & ->).
  eapply ref_let; [exact (ref_readh _ _ _ K3)|]. intros a m' G'' (-> & ->).
  apply ref_eta. eapply ref_bind; [apply ref_lift|]. intros r x m' _ (-> & ->). apply ref_tight.
Qed.
Lemma set_sign_upd (neg : bool) (s : bytes) : s <> [] ->
  upd s (length s - 1) (Z.lor (byte_at s (length s - 1)) (if neg then 128%Z else 0%Z)) = set_sign neg s.
Proof.
  intros N. rewrite <- set_nth_upd by (destruct s; [contradiction|cbn [length]; lia]).
  unfold set_nth, set_sign. f_equal. f_equal. apply skipn_all2. destruct s; [contradiction|cbn [length]; lia].
Qed.
Lemma ref_gencode_proj m g : refines (gencode_proj g) m (g_encode_proj g) (tight m).
Proof.
  unfold gencode_proj, g_encode_proj, fencode.
  set (y := fe_mul (gY g) _). set (x := fe_mul (gX g) _). clearbody x y. cbv zeta.
  pose proof (fe_encode_32 y) as L32. generalize dependent (fe_encode y). intros d L.
  generalize (fe_is_negative x). intros neg. clear x y g.
  set (f := fun v => Z.lor v (if neg then 128%Z else 0%Z)).
  assert (L31 : 31 < 32) by lia. assert (L31' : 0 + 31 < length (d ++ repeat 0%Z 0)) by (rewrite app_length, L; cbn; lia).
  destruct (fresh_exec m d 0) as (E0 & Q0). rewrite L in E0. cbn [Nat.add] in E0.
  destruct (rmw m (d ++ repeat 0%Z 0) 0 32 32 31 f (fun _ => ege (SL (last_own m) 0 32 32)) L31 L31') as (E1 & Q1).
  cbv zeta in E1, Q1. cbn [repeat] in *. rewrite app_nil_r in *. cbn [Nat.add] in *.
  assert (U : upd d 31 (f (byte_at d 31)) = set_sign neg d).
  { rewrite <- set_sign_upd by (destruct d; [discriminate|congruence]). rewrite L. reflexivity. }
  rewrite U in *.
  assert (LS : length (set_sign neg d) = 32) by (rewrite <- U, upd_length; exact L).
  assert (E : exec (let* s := fresh d 0 in (let* v := idx s (s_len s - 1) in
      let* _ := set s (s_len s - 1) (f v) in ege s)) m = (Ok (SL (last_own m) 0 32 32), push m (set_sign neg d))).
  { rewrite exec_bind, E0. cbn [s_len]. change (32 - 1) with 31. rewrite E1. reflexivity. }
  assert (Q : quiet (let* s := fresh d 0 in (let* v := idx s (s_len s - 1) in
      let* _ := set s (s_len s - 1) (f v) in ege s)) m).
  { apply quiet_bind; [exact Q0|]. intros a m' Ea. rewrite E0 in Ea. injection Ea as <- <-. cbn [s_len].
    change (32 - 1) with 31. apply Q1. exact I. }
  unfold new_ege. rewrite LS. cbn [Nat.eqb].
  eapply ref_exec; [exact E|exact Q|apply grows_push|]. split; [|exact (eq_sym LS)].
  split; [apply wf_push; lia|]. split; [|apply new_push].
  rewrite rd_push. cbn [skipn]. apply firstn_all2. lia.
Qed.
Lemma ref_gencode m g : refines (gencode g) m (g_encode g) (tight m).
Proof.
  unfold gencode, g_encode.
  destruct (g_cs g); try apply ref_gencode_proj;
    (eapply ref_bind; [apply ref_lift|]; intros a x m' _ (-> & ->); apply ref_gencode_proj).
Qed.
Lemma ref_gdecode m s b : holds m s b -> refines (gdecode s) m (g_decode b) (same m).
Proof.
  intros K. unfold gdecode, g_decode.
  eapply ref_let; [exact (ref_readh _ _ _ K)|]. intros a m' G (-> & ->).
  eapply ref_bind; [apply ref_lift|]. intros x x' m' _ (-> & ->).
  eapply ref_let; [exact (ref_readh _ _ _ K)|]. intros a m' _ (-> & ->).
  eapply ref_bind; [apply ref_lift|]. intros y y' m' _ (-> & ->).
  apply ref_ret. split; reflexivity.
Qed.
Lemma ref_mult m g s b : holds m s b -> refines (mult g s) m (g_scalarMultiply g b) (same m).
Proof.
  intros K. unfold mult. eapply ref_let; [exact (ref_readh _ _ _ K)|]. intros a m' G (-> & ->). apply ref_lift.
Qed.
Lemma ref_equal m s b t c : holds m s b -> holds m t c -> refines (equal s t) m (Ok (beq_bytes b c)) (same m).
Proof.
  intros K1 K2. unfold equal.
  eapply ref_let; [exact (ref_readh _ _ _ K1)|]. intros a m' G (-> & ->).
  eapply ref_let; [exact (ref_readh _ _ _ K2)|]. intros a m' _ (-> & ->). apply ref_ret. split; reflexivity.
Qed.

Section Hashing.
Variable H512 : list bytes -> bytes.
Hypothesis H512_64 : forall ps, length (H512 ps) = 64.
Variable H256 : bytes -> bytes.
Variable aesE aesD : bytes -> bytes -> bytes.
Variable spare : nat -> nat.
Notation sha512 := (sha512 H512 spare).
Notation sha256 := (sha256 H256 spare).
Notation prepare := (prepare H512 spare).
Notation derive := (derive H512 spare).

Lemma ref_read_all m : forall ss bs, Forall2 (holds m) ss bs -> refines (read_all ss) m (Ok bs) (same m).
Proof.
  intros ss bs K. induction K as [|s b ss bs K _ IH]; cbn [read_all].
  - apply ref_ret. split; reflexivity.
  - eapply ref_let; [exact (ref_readh _ _ _ K)|]. intros a m' G (-> & ->).
    eapply ref_let; [exact IH|]. intros a m' _ (-> & ->). apply ref_ret. split; reflexivity.
Qed.
Lemma ref_sha512 m ss bs : Forall2 (holds m) ss bs -> refines (sha512 ss) m (Ok (H512 bs)) (shows m).
Proof.
  intros K. unfold MemModel.sha512. eapply ref_let; [exact (ref_read_all _ _ _ K)|]. intros a m' G (-> & ->).
  eapply ref_imp; [apply ref_fresh|]. intros s b m' _ (Sh & _). exact Sh.
Qed.
Lemma ref_sha256 m s b : holds m s b -> refines (sha256 s) m (Ok (H256 b)) (shows m).
Proof.
  intros K. unfold MemModel.sha256. eapply ref_let; [exact (ref_readh _ _ _ K)|]. intros a m' G (-> & ->).
  eapply ref_imp; [apply ref_fresh|]. intros s' b' m' _ (Sh & _). exact Sh.
Qed.

Lemma prepare_unfold k : prepare_for_scalar_multiply H512 k = Ok (clamp (firstn 32 (H512 [pk_raw k]))).
Proof. unfold prepare_for_scalar_multiply. rewrite H512_64. reflexivity. Qed.
Definition holds_priv (m : mem) (k : mpriv) (p : privkey) : Prop := holds m (mk_raw k) (pk_raw p) /\ mk_value k = pk_value p.
Lemma ref_prepare m k p : holds_priv m k p ->
  refines (prepare k) m (prepare_for_scalar_multiply H512 p) (shows m).
Proof.
  intros (K & _). rewrite prepare_unfold. unfold MemModel.prepare, MemModel.sha512.
  set (h := H512 [pk_raw p]). pose proof (H512_64 [pk_raw p]) as LH. fold h in LH.
  set (x := spare (length h)).
  assert (E0 : exec (let* ds := read_all [mk_raw k] in fresh (H512 ds) (spare (length (H512 ds)))) m
               = (Ok (SL (last_own m) 0 64 (64 + x)), push m (h ++ repeat 0%Z x)) /\
               quiet (let* ds := read_all [mk_raw k] in fresh (H512 ds) (spare (length (H512 ds)))) m).
  { destruct (read_ok m (mk_raw k)) as (Er & Qr); [apply K|].
    assert (RA : exec (read_all [mk_raw k]) m = (Ok [pk_raw p], m) /\ quiet (read_all [mk_raw k]) m).
    { cbn [read_all]. split.
      - rewrite exec_bind, Er. cbn. destruct K as (_ & ->). reflexivity.
      - apply quiet_bind; [exact Qr|]. intros; exact I. }
    destruct RA as (Ea & Qa). destruct (fresh_exec m h x) as (Ef & Qf). rewrite LH in Ef. split.
    - rewrite exec_bind, Ea. exact Ef.
    - apply quiet_bind; [exact Qa|]. intros a m' E. rewrite Ea in E. injection E as <- <-. exact Qf. }
  destruct E0 as (E0 & Q0).
  assert (CX : exists cap, cap = 64 + x) by eauto. destruct CX as (cap & CX). rewrite <- CX in E0.
  set (a := SL (last_own m) 0 32 cap).
  set (l0 := h ++ repeat 0%Z x). assert (L0 : 64 <= length l0) by (unfold l0; rewrite app_length; lia).
  set (l1 := upd l0 31 (Z.land (byte_at l0 31) 0x7F)).
  assert (L1 : 64 <= length l1) by (unfold l1; rewrite upd_length; exact L0).
  set (l2 := upd l1 31 (Z.lor (byte_at l1 31) 0x40)).
  assert (L2 : 64 <= length l2) by (unfold l2; rewrite upd_length; exact L1).
  set (l3 := upd l2 0 (Z.land (byte_at l2 0) 0xF8)).
  assert (L3 : 64 <= length l3) by (unfold l3; rewrite upd_length; exact L2).
  destruct (rmw m l2 0 32 cap 0 (fun v => Z.land v 0xF8) (fun _ => ret a)) as (E3 & Q3); [lia|lia|].
  set (k3 := fun _ : unit => let* v := idx a 0 in let* _ := set a 0 (Z.land v 0xF8) in ret a).
  destruct (rmw m l1 0 32 cap 31 (fun v => Z.lor v 0x40) k3) as (E2 & Q2); [lia|lia|].
  set (k2 := fun _ : unit => let* v := idx a 31 in let* _ := set a 31 (Z.lor v 0x40) in k3 tt).
  destruct (rmw m l0 0 32 cap 31 (fun v => Z.land v 0x7F) k2) as (E1 & Q1); [lia|lia|].
  cbv zeta in E1, E2, E3, Q1, Q2, Q3. cbn [Nat.add] in E1, E2, E3, Q1, Q2, Q3.
  fold l1 in E1, Q1. fold l2 in E2, Q2. fold l3 in E3, Q3.
  assert (EE : exec (k2 tt) (push m l1) = (Ok a, push m l3)).
  { refine (eq_trans E2 _). refine (eq_trans E3 _). reflexivity. }
  assert (QQ : quiet (k2 tt) (push m l1)).
  { refine (Q2 _). refine (Q3 _). exact I. }
  assert (SH : shows m a (clamp (firstn 32 h)) (push m l3)).
  { split; [unfold a; apply wf_push; unfold l3, l2, l1, l0; rewrite ?upd_length, ?app_length, ?repeat_length; lia|].
    split; [|apply new_push]. unfold a. rewrite rd_push. cbn [skipn].
    unfold l3, l2, l1, l0, clamp.
    set (t := firstn 32 h).
    assert (LT : length t = 32) by (unfold t; rewrite firstn_length; lia).
    replace (h ++ repeat 0%Z x) with (t ++ (skipn 32 h ++ repeat 0%Z x)) by (unfold t; rewrite app_assoc, firstn_skipn; reflexivity).
    repeat (rewrite ?byte_at_app, ?upd_app by (rewrite ?upd_length; lia)).
    rewrite firstn_app. rewrite !upd_length, LT. rewrite Nat.sub_diag, firstn_O, app_nil_r.
    apply firstn_all2. rewrite !upd_length. lia. }
  assert (RS : reslice (SL (last_own m) 0 64 cap) 0 32 = Ok a).
  { unfold reslice. cbn [s_arr s_off s_len s_cap]. replace (32 <=? cap) with true by (symmetry; apply Nat.leb_le; lia).
    cbn [Nat.leb andb]. rewrite !Nat.sub_0_r. reflexivity. }
  eapply ref_exec with (a := a) (m' := push m l3); [| |apply grows_push|exact SH].
  - rewrite exec_bind, E0. rewrite exec_bind. cbn [lift exec].
    rewrite RS.
    change (exec (let* v := idx a 31 in let* _ := set a 31 (Z.land v 0x7F) in k2 tt) (push m l0) = (Ok a, push m l3)).
    fold a in E1. exact (eq_trans E1 EE).
  - apply quiet_bind; [exact Q0|]. intros s m' Es. rewrite E0 in Es. injection Es as <- <-.
    rewrite RS. cbn [lift bindp].
    change (quiet (let* v := idx a 31 in let* _ := set a 31 (Z.land v 0x7F) in k2 tt) (push m l0)).
    fold a in Q1. apply Q1. exact QQ.
Qed.

Lemma tight_grows m0 m m' s b : grows m m' -> tight m0 s b m -> tight m0 s b m'.
Proof. intros G (K & C). split; [exact (shows_grows _ _ _ _ _ G K)|exact C]. Qed.
Lemma tight_older m0 m1 m s b : grows m0 m1 -> tight m1 s b m -> tight m0 s b m.
Proof. intros G (K & C). split; [exact (shows_older _ _ _ _ _ G K)|exact C]. Qed.
Lemma tight_holds m0 s b m : tight m0 s b m -> holds m s b.
Proof. intros (K & _). exact (shows_holds _ _ _ _ K). Qed.
Lemma priv_grows m m' k p : grows m m' -> holds_priv m k p -> holds_priv m' k p.
Proof. intros G (K & V). split; [exact (holds_grows _ _ _ _ G K)|exact V]. Qed.

Ltac up G :=
  match type of G with grows ?m ?m' =>
    repeat match goal with
    | K : holds m _ _ |- _ => apply (holds_grows _ _ _ _ G) in K
    | K : holds_priv m _ _ |- _ => apply (priv_grows _ _ _ _ G) in K
    | K : tight _ _ _ m |- _ => apply (tight_grows _ _ _ _ _ G) in K
    | K : shows _ _ _ m |- _ => apply (shows_grows _ _ _ _ _ G) in K
    end
  end.

Lemma ref_derive m k p : holds_priv m k p -> refines (derive k) m (derive_public_key H512 p) (tight m).
Proof.
  intros K. unfold MemModel.derive, derive_public_key.
  eapply ref_bind; [exact (ref_prepare _ _ _ K)|]. intros a b m1 G1 A.
  eapply ref_bind; [apply ref_lift|]. intros B B' m' _ (-> & ->).
  eapply ref_bind; [apply ref_must; exact (ref_mult _ _ _ _ (shows_holds _ _ _ _ A))|]. intros P P' m' _ (-> & ->).
  eapply ref_imp; [apply ref_must; apply ref_gencode|]. intros s x m2 G2 T. exact (tight_older _ _ _ _ _ G1 T).
Qed.

(** objects that have given values *)
Definition holds_pair (m : mem) (k : mpair) (p : keypair) : Prop :=
  (match mp_priv k, kp_priv p with
   | Some a, Some b => holds_priv m a b | None, None => True | _, _ => False end) /\ holds m (mp_pub k) (kp_pub p).
Definition holds_sig (m : mem) (g : msig) (x : signature) : Prop := holds m (mR g) (sR x) /\ holds m (mS g) (sS x).
Definition holds_opt {A B} (P : A -> B -> Prop) (a : option A) (b : option B) : Prop :=
  match a, b with Some x, Some y => P x y | None, None => True | _, _ => False end.
Lemma pair_grows m m' k p : grows m m' -> holds_pair m k p -> holds_pair m' k p.
Proof.
  intros G (K & P). split; [|exact (holds_grows _ _ _ _ G P)].
  destruct (mp_priv k), (kp_priv p); try contradiction; [exact (priv_grows _ _ _ _ G K)|exact I].
Qed.
Lemma sig_grows m m' g x : grows m m' -> holds_sig m g x -> holds_sig m' g x.
Proof. intros G (K & P). split; apply (holds_grows _ _ _ _ G); assumption. Qed.

Lemma ref_new_private_key m s b : holds m s b ->
  refines (mnew_private_key s) m (Ok (new_private_key b)) (fun k p m' => holds_priv m' k p /\ mk_raw k = s /\ m' = m).
Proof.
  intros K. unfold mnew_private_key. eapply ref_let; [exact (ref_readh _ _ _ K)|]. intros a m' G (-> & ->).
  apply ref_ret. split; [split; [exact K|reflexivity]|]. split; reflexivity.
Qed.
(** a given public key slice is kept; a derived one is new *)
Lemma ref_new_key_pair m k p pub b : holds_opt (holds_priv m) k p -> holds_opt (holds m) pub b ->
  refines (mnew_key_pair H512 spare k pub) m (new_key_pair H512 p b)
    (fun x y m' => holds_pair m' x y /\ mp_priv x = k /\
       (forall s, pub = Some s -> mp_pub x = s /\ m' = m) /\ (pub = None -> tight m (mp_pub x) (kp_pub y) m')).
Proof.
  intros K B. unfold mnew_key_pair, new_key_pair.
  destruct pub as [s|], b as [b|]; try contradiction; cbn in B.
  - unfold is_key_compressed. rewrite (holds_len _ _ _ B).
    destruct (32 =? length b); [|apply ref_err]. apply ref_ret. split; [split; [exact K|exact B]|].
    split; [reflexivity|]. split; [intros s' [= <-]; split; reflexivity|discriminate].
  - destruct k as [k|], p as [p|]; try contradiction; [|apply ref_panic]. cbn in K.
    eapply ref_bind; [exact (ref_derive _ _ _ K)|]. intros s x m' G T. up G.
    apply ref_ret. split; [split; [exact K|exact (tight_holds _ _ _ _ T)]|].
    split; [reflexivity|]. split; [discriminate|]. intros _. exact T.
Qed.

(** ** make and io.ReadFull *)
Lemma make_exec m n : exec (make n) m = (Ok (SL (last_own m) 0 n n), push m (repeat 0%Z n)) /\ quiet (make n) m.
Proof. split; [reflexivity|exact I]. Qed.
Lemma fill_push {A} m l n cap i d (k : unit -> prog A) : i + length d <= n -> n <= length l ->
  exec (bindp (fill (SL (last_own m) 0 n cap) i d) k) (push m l) = exec (k tt) (push m (over l i d)) /\
  (quiet (k tt) (push m (over l i d)) -> quiet (bindp (fill (SL (last_own m) 0 n cap) i d) k) (push m l)).
Proof.
  intros L1 L2. unfold fill. cbn [s_len s_arr s_off Nat.add].
  replace (i + length d <=? n) with true by (symmetry; apply Nat.leb_le; exact L1).
  destruct (write_push m (ret tt) d l i ltac:(lia)) as (E & Q).
  split.
  - rewrite exec_bind, E. reflexivity.
  - intros K. apply quiet_bind; [apply Q; exact I|]. intros a m' E'. rewrite E in E'. injection E' as <- <-. exact K.
Qed.
(** a new buffer filled from the random source *)
Lemma ref_random {B Y} m n random (f : sl -> bytes -> prog B) (g : bytes * bytes -> res Y) R :
  (forall s m', n <= length random -> tight m s (firstn n random) m' -> grows m m' -> refines (f s (skipn n random)) m' (g (firstn n random, skipn n random)) R) ->
  refines (let* buf := make n in (let* rest := read_full_into buf random in f buf rest)) m (bind (read_full random n) g) R.
Proof.
  intros F. set (s := SL (last_own m) 0 n n).
  assert (LF : length (firstn n random) <= n) by (rewrite firstn_length; lia).
  set (k := fun _ : unit => if length random <? n then Ret (Err ErrEOF) else ret (skipn n random)).
  destruct (fill_push m (repeat 0%Z n) n n 0 (firstn n random) k) as (E & Q); [lia|rewrite repeat_length; lia|].
  rewrite over_repeat in E, Q by lia.
  set (m1 := push m (firstn n random ++ repeat 0%Z (n - length (firstn n random)))) in *.
  assert (E1 : exec (read_full_into s random) (push m (repeat 0%Z n)) = exec (k tt) m1) by exact E.
  assert (Q1 : quiet (k tt) m1 -> quiet (read_full_into s random) (push m (repeat 0%Z n))) by exact Q.
  pose proof E1 as E2. unfold k in E2.
  assert (QK : quiet (k tt) m1) by (unfold k; destruct (length random <? n); exact I).
  assert (EM : forall C (h : sl -> prog C), exec (bindp (make n) h) m = exec (h s) (push m (repeat 0%Z n))) by reflexivity.
  assert (QM : forall C (h : sl -> prog C), quiet (h s) (push m (repeat 0%Z n)) -> quiet (bindp (make n) h) m) by (intros; assumption).
  unfold read_full, refines. rewrite EM, exec_bind, E1. clear E1 E Q. unfold k in *. clear k.
  destruct (length random <? n) eqn:LT.
  - cbn [bind exec fst snd]. split; [|split].
    + apply QM. apply quiet_bind; [exact (Q1 QK)|]. intros a m' E'. exfalso. rewrite E2 in E'. cbn in E'. discriminate E'.
    + apply grows_push.
    + reflexivity.
  - apply Nat.ltb_ge in LT. cbn [bind exec ret].
    assert (FL : length (firstn n random) = n) by (rewrite firstn_length; lia).
    assert (T : tight m s (firstn n random) m1).
    { split; [|exact (eq_sym FL)]. pose proof (shows_fresh m (firstn n random) 0) as K. rewrite FL, Nat.add_0_r in K.
      unfold m1. rewrite FL, Nat.sub_diag. exact K. }
    destruct (F s m1 LT T (grows_push _ _)) as (QF & GF & KF).
    split; [|split].
    + apply QM. apply quiet_bind; [exact (Q1 QK)|]. intros a m' E'.
      rewrite E2 in E'. injection E' as <- <-. exact QF.
    + exact (grows_trans _ _ _ (grows_push _ _) GF).
    + exact KF.
Qed.
Lemma ref_eta2 {A X Y} (p : prog A) m (v : res (X * Y)) R :
  refines p m (bind v (fun x => Ok (fst x))) R -> refines p m v (fun a x m' => R a (fst x) m').
Proof. destruct v; exact (fun K => K). Qed.
Definition new_pair (m0 : mem) (x : mpair) (y : keypair) (m : mem) : Prop :=
  holds_pair m x y /\ is_new m0 (mp_pub x) /\ s_cap (mp_pub x) = s_len (mp_pub x) /\
  exists k, mp_priv x = Some k /\ is_new m0 (mk_raw k) /\ s_cap (mk_raw k) = s_len (mk_raw k).
Lemma ref_generate m random :
  refines (mgenerate H512 spare random) m (generate_key_pair H512 random) (fun x y m' => new_pair m x (fst y) m').
Proof.
  unfold mgenerate, generate_key_pair.
  apply (ref_random m 32 random (fun seed _ => let* privateKey := mnew_private_key seed in
     let* publicKey := derive privateKey in mnew_key_pair H512 spare (Some privateKey) (Some publicKey))).
  intros s m1 _ T G1. cbn [fst snd].
  eapply ref_let; [exact (ref_new_private_key _ _ _ (tight_holds _ _ _ _ T))|]. intros k m' _ (K & ER & ->).
  eapply ref_bind; [exact (ref_derive _ _ _ K)|]. intros pub b m2 G2 P. up G2.
  pose proof (tight_holds _ _ _ _ P) as HP.
  pose proof (ref_new_key_pair m2 (Some k) (Some (new_private_key (firstn 32 random))) (Some pub) (Some b) K HP) as NP.
  assert (NP' : refines (mnew_key_pair H512 spare (Some k) (Some pub)) m2
    (bind (new_key_pair H512 (Some (new_private_key (firstn 32 random))) (Some b)) (fun kp => Ok (kp, skipn 32 random)))
    (fun x y m' => holds_pair m' x (fst y) /\ mp_priv x = Some k /\ mp_pub x = pub /\ m' = m2)).
  { destruct NP as (Q & G & A). split; [exact Q|]. split; [exact G|].
    destruct (fst (exec _ m2)), (new_key_pair H512 _ _); cbn in *; try contradiction; try exact A.
    destruct A as (A1 & A2 & A3 & _). destruct (A3 pub eq_refl) as (A4 & A5). auto. }
  eapply ref_imp; [exact NP'|]. intros x y m3 _ (A1 & A2 & A3 & ->).
  split; [exact A1|]. rewrite A3.
  destruct P as ((WP & EP & NewP) & CP). split; [exact (is_new_grows _ _ _ G1 NewP)|].
  split; [rewrite CP; symmetry; exact (holds_len _ _ _ HP)|].
  exists k. split; [exact A2|]. rewrite ER. destruct T as ((WT & ET & NT) & CT). split; [exact NT|].
  rewrite CT, <- ET. apply rd_length. exact WT.
Qed.

(** ** Signatures *)
Lemma ref_new_signature m r rb s sb : holds m r rb -> holds m s sb ->
  refines (mnew_signature r s) m (new_signature rb sb)
    (fun g x m' => g = MSig r s /\ x = Sig rb sb /\ m' = m /\ s_len r = 32 /\ s_len s = 32).
Proof.
  intros K1 K2. unfold mnew_signature, new_signature. rewrite (holds_len _ _ _ K1), (holds_len _ _ _ K2).
  destruct (Nat.eqb_spec (length rb) 32); [|apply ref_err]. destruct (Nat.eqb_spec (length sb) 32); [|apply ref_err].
  apply ref_ret. auto.
Qed.
Lemma reslice_ok m s b lo hi : holds m s b -> lo <= hi -> hi <= length b ->
  exists t, reslice s lo hi = Ok t /\ holds m t (firstn (hi - lo) (skipn lo b)) /\ s_arr t = s_arr s.
Proof.
  intros ((N & L1 & L2) & E) A B. pose proof (rd_length m s (conj N (conj L1 L2))) as L. rewrite E in L.
  unfold reslice. replace (lo <=? hi) with true by (symmetry; apply Nat.leb_le; lia).
  replace (hi <=? s_cap s) with true by (symmetry; apply Nat.leb_le; lia). cbn [andb].
  eexists. split; [reflexivity|]. split; [|reflexivity]. split.
  - unfold wf_sl. cbn [s_arr s_off s_len s_cap]. split; [exact N|lia].
  - rewrite <- E. unfold rd. cbn [s_arr s_off s_len s_cap].
    set (l := array_of m (s_arr s)). rewrite skipn_firstn_comm, firstn_firstn.
    replace (Nat.min (hi - lo) (s_len s - lo)) with (hi - lo) by lia. f_equal.
    clear. generalize (s_off s). revert l lo. induction l as [|x l IH]; intros lo n.
    + rewrite !skipn_nil. reflexivity.
    + destruct n; [reflexivity|]. cbn [skipn Nat.add]. apply IH.
Qed.
Lemma ref_from_bytes m b d : holds m b d ->
  refines (mnew_signature_from_bytes b) m (new_signature_from_bytes d)
    (fun g x m' => holds_sig m' g x /\ s_arr (mR g) = s_arr b /\ s_arr (mS g) = s_arr b /\ m' = m).
Proof.
  intros K. unfold mnew_signature_from_bytes, new_signature_from_bytes. rewrite (holds_len _ _ _ K).
  destruct (length d <? 64) eqn:L; [apply ref_err|]. apply Nat.ltb_ge in L.
  destruct (reslice_ok m b d 0 32 K ltac:(lia) ltac:(lia)) as (r & E1 & K1 & A1).
  destruct (reslice_ok m b d 32 (length d) K ltac:(lia) ltac:(lia)) as (s & E2 & K2 & A2).
  rewrite E1. cbn [lift bindp]. rewrite E2. cbn [bindp].
  cbn [skipn Nat.sub] in K1. rewrite firstn_all2 in K2 by (rewrite skipn_length; lia).
  eapply ref_imp; [exact (ref_new_signature _ _ _ _ _ K1 K2)|].
  intros g x m' _ (-> & -> & -> & _). split; [split; [exact K1|exact K2]|]. cbn [mR mS]. auto.
Qed.
Lemma ref_is_canonical m g x : holds m (mS g) (sS x) -> refines (mis_canonical g) m (Ok (is_canonical_signature x)) (same m).
Proof.
  intros K. unfold mis_canonical. eapply ref_let; [exact (ref_readh _ _ _ K)|]. intros a m' G (-> & ->).
  apply ref_ret. split; reflexivity.
Qed.
(** a buffer of n zeros with bytes copied to its beginning *)
Lemma ref_filled {B Y} m n d (f : sl -> prog B) (v : res Y) R : length d <= n ->
  (forall s m', tight m s (d ++ repeat 0%Z (n - length d)) m' -> grows m m' -> refines (f s) m' v R) ->
  refines (let* s := make n in (let* _ := fill s 0 d in f s)) m v R.
Proof.
  intros L F. set (s := SL (last_own m) 0 n n).
  destruct (fill_push m (repeat 0%Z n) n n 0 d (fun _ => f s)) as (E & Q); [lia|rewrite repeat_length; lia|].
  rewrite over_repeat in E, Q by lia. fold s in E, Q.
  assert (EM : forall C (h : sl -> prog C), exec (bindp (make n) h) m = exec (h s) (push m (repeat 0%Z n))) by reflexivity.
  assert (QM : forall C (h : sl -> prog C), quiet (h s) (push m (repeat 0%Z n)) -> quiet (bindp (make n) h) m) by (intros; assumption).
  destruct (F s (push m (d ++ repeat 0%Z (n - length d)))) as (QF & GF & KF).
  - split.
    + split; [apply wf_push; rewrite ?app_length, ?repeat_length; lia|]. split; [|apply new_push].
      unfold s. rewrite rd_push. cbn [skipn]. apply firstn_all2. rewrite app_length, repeat_length. lia.
    + cbn [s s_cap]. rewrite app_length, repeat_length. lia.
  - apply grows_push.
  - unfold refines. rewrite EM, E. split; [apply QM, Q; exact QF|].
    split; [exact (grows_trans _ _ _ (grows_push _ _) GF)|exact KF].
Qed.
Lemma ref_swap {A B} m (s : sl) (b : bytes) (f : sl -> bytes -> prog A) n (v : res B) R : holds m s b ->
  refines (let* t := make n in f t b) m v R ->
  refines (let* t := make n in (let* d := read s in f t d)) m v R.
Proof.
  intros K (Q & G & AG).
  assert (K' : holds (push m (repeat 0%Z n)) s b) by exact (holds_grows _ _ _ _ (grows_push _ _) K).
  destruct (read_ok _ _ (proj1 K')) as (Er & Qr). rewrite (proj2 K') in Er.
  set (t := SL (last_own m) 0 n n).
  assert (EM : forall C (h : sl -> prog C), exec (bindp (make n) h) m = exec (h t) (push m (repeat 0%Z n))) by reflexivity.
  assert (QM : forall C (h : sl -> prog C), quiet (bindp (make n) h) m = quiet (h t) (push m (repeat 0%Z n))) by reflexivity.
  unfold refines in *. rewrite EM in *. rewrite QM in *. rewrite exec_bind, Er. split; [|split; assumption].
  apply quiet_bind; [exact Qr|]. intros a m' E. rewrite Er in E. injection E as <- <-. exact Q.
Qed.
Lemma firstn_repeat k : forall n, n <= k -> firstn n (repeat 0%Z k) = repeat 0%Z n.
Proof. induction k as [|k IH]; intros [|n] L; cbn; try reflexivity; try lia. f_equal. apply IH. lia. Qed.
Lemma firstn64 (d : bytes) : firstn 64 (d ++ all_zero 64) = firstn 64 d ++ repeat 0%Z (64 - length (firstn 64 d)).
Proof.
  unfold all_zero. rewrite firstn_app. f_equal. rewrite firstn_repeat by lia. f_equal. rewrite firstn_length. lia.
Qed.
Lemma ref_make_canonical m g x : holds_sig m g x ->
  refines (mmake_canonical g) m (make_signature_canonical x)
    (fun h y m' => mR h = mR g /\ holds_sig m' h y /\ tight m (mS h) (sS y) m').
Proof.
  intros (K1 & K2). unfold mmake_canonical, make_signature_canonical. cbv zeta.
  apply (ref_swap m (mS g) (sS x) (fun sign d => let* _ := fill sign 0 (firstn 64 d) in
    (let* s := efe sign in let* sModQ := modQ s in mnew_signature (mR g) sModQ)) 64 _ _ K2).
  apply ref_filled; [rewrite firstn_length; lia|]. intros s m1 T G1.
  rewrite firstn64. up G1.
  eapply ref_bind; [exact (ref_efe _ _ _ (tight_holds _ _ _ _ T))|]. intros e b m' _ (-> & -> & ->).
  eapply ref_bind; [exact (ref_modQ _ _ _ (tight_holds _ _ _ _ T))|]. intros q b m2 G2 T2. up G2.
  eapply ref_imp; [exact (ref_new_signature _ _ _ _ _ K1 (tight_holds _ _ _ _ T2))|].
  intros h y m' _ (-> & -> & -> & _). cbn [mR mS sR sS]. split; [reflexivity|].
  split; [split; [exact K1|exact (tight_holds _ _ _ _ T2)]|]. exact (tight_older _ _ _ _ _ G1 T2).
Qed.

(** ** Sign *)
Definition new_sig (m0 : mem) (g : msig) (x : signature) (m : mem) : Prop :=
  tight m0 (mR g) (sR x) m /\ tight m0 (mS g) (sS x) m /\ s_arr (mR g) <> s_arr (mS g) /\ s_len (mR g) = 32 /\ s_len (mS g) = 32.
Lemma tight_newer m0 m s b : tight m0 s b m -> arr m0 (s_arr s) = None /\ arr m (s_arr s) <> None.
Proof.
  intros ((W & _ & (n & E & L)) & _). split; [|exact (proj1 W)]. rewrite E. cbn. apply nth_error_None. exact L.
Qed.
Lemma ref_sign m kp p mess b : holds_pair m kp p -> holds m mess b ->
  refines (msign H512 spare kp mess) m (sign H512 p b) (new_sig m).
Proof.
  intros (KP & PB) M. unfold msign, sign, has_private_key.
  destruct (mp_priv kp) as [k|], (kp_priv p) as [pk|]; try contradiction; [|apply ref_err].
  cbn [negb deref bind].
  set (H1 := H512 [pk_raw pk]). assert (L1 : length H1 = 64) by apply H512_64. rewrite L1. cbn [Nat.ltb Nat.leb]. cbv zeta.
  eapply ref_let; [apply (ref_sha512 m [mk_raw k] [pk_raw pk]); constructor; [exact (proj1 KP)|constructor]|].
  fold H1. intros hash m1 G1 S1. up G1.
  destruct (reslice_ok m1 hash H1 32 (s_len hash) (shows_holds _ _ _ _ S1)) as (tail & E1 & K1 & _);
    [rewrite (shows_len _ _ _ _ S1); lia|rewrite (shows_len _ _ _ _ S1); lia|].
  rewrite E1, lift_ok. rewrite (shows_len _ _ _ _ S1) in K1. rewrite firstn_all2 in K1 by (rewrite skipn_length; lia).
  eapply ref_let; [apply (ref_sha512 m1 [tail; mess] [skipn 32 H1; b]); constructor; [exact K1|]; constructor; [exact M|constructor]|].
  intros hr m2 G2 S2. up G2.
  eapply ref_bind; [exact (ref_efe _ _ _ (shows_holds _ _ _ _ S2))|]. intros r rb m' _ (-> & -> & ->).
  eapply ref_bind; [exact (ref_modQ _ _ _ (shows_holds _ _ _ _ S2))|]. intros rq rqb m3 G3 T3. up G3.
  eapply ref_bind; [apply ref_lift|]. intros B B' m' _ (-> & ->).
  eapply ref_bind; [exact (ref_mult _ _ _ _ (tight_holds _ _ _ _ T3))|]. intros R R' m' _ (-> & ->).
  eapply ref_bind; [apply ref_gencode|]. intros er erb m4 G4 T4. up G4.
  pose proof (tight_holds _ _ _ _ T4) as K4.
  eapply ref_let; [apply (ref_sha512 m4 [er; mp_pub kp; mess] [erb; kp_pub p; b]);
    constructor; [exact K4|]; constructor; [exact PB|]; constructor; [exact M|constructor]|].
  intros hh m5 G5 S5. up G5.
  eapply ref_bind; [exact (ref_efe _ _ _ (shows_holds _ _ _ _ S5))|]. intros h hb m' _ (-> & -> & ->).
  eapply ref_bind; [exact (ref_modQ _ _ _ (shows_holds _ _ _ _ S5))|]. intros hq hqb m6 G6 T6. up G6.
  eapply ref_bind; [exact (ref_prepare _ _ _ KP)|]. intros a ab m7 G7 S7. up G7.
  eapply ref_bind; [exact (ref_mulAdd _ _ _ _ _ _ _ (tight_holds _ _ _ _ T6) (shows_holds _ _ _ _ S7) (tight_holds _ _ _ _ T3))|].
  intros es esb m8 G8 T8. 
  assert (ND : s_arr er <> s_arr es).
  { pose proof (proj1 (tight_newer _ _ _ _ T8)) as N8. pose proof (proj2 (tight_newer _ _ _ _ T4)) as N4. congruence. }
  up G8.
  eapply ref_bind; [exact (ref_new_signature _ _ _ _ _ (tight_holds _ _ _ _ T4) (tight_holds _ _ _ _ T8))|].
  intros g x m' _ (-> & -> & -> & N1 & N2).
  eapply ref_let; [apply (ref_is_canonical _ _ (Sig erb esb)); exact (tight_holds _ _ _ _ T8)|]. intros c m' _ (-> & ->).
  destruct (negb (is_canonical_signature (Sig erb esb))); [apply ref_err|]. apply ref_ret.
  assert (G03 : grows m m3) by eauto using grows_trans. assert (G07 : grows m m7) by eauto 10 using grows_trans.
  split; [exact (tight_older _ _ _ _ _ G03 T4)|]. split; [exact (tight_older _ _ _ _ _ G07 T8)|]. split; [exact ND|]. split; [exact N1|exact N2].
Qed.

(** ** Verify *)
Lemma ref_make m n : refines (make n) m (Ok (repeat 0%Z n)) (tight m).
Proof.
  destruct (make_exec m n) as (E & Q). eapply ref_exec; [exact E|exact Q|apply grows_push|].
  split; [|symmetry; apply repeat_length]. split; [apply wf_push; rewrite ?repeat_length; lia|]. split; [|apply new_push].
  rewrite rd_push. cbn [skipn]. apply firstn_all2. rewrite repeat_length. lia.
Qed.
Lemma ref_same_is {A} (p : prog A) m0 m v : refines p m v (same m0) -> refines p m v is.
Proof. intros K. eapply ref_imp; [exact K|]. intros a x m' _ (-> & _). reflexivity. Qed.
Lemma ref_verify m kp p mess b g x : holds_pair m kp p -> holds m mess b -> holds_sig m g x ->
  refines (mverify H512 spare kp mess g) m (verify H512 p b x) is.
Proof.
  intros (_ & PB) M (KR & KS). unfold mverify, verify.
  eapply ref_let; [exact (ref_is_canonical _ _ _ KS)|]. intros c m' _ (-> & ->).
  destruct (negb (is_canonical_signature x)); [apply ref_ret; reflexivity|].
  eapply ref_let; [apply (ref_make m 32)|]. intros z m1 G1 T1. up G1.
  eapply ref_let; [exact (ref_equal _ _ _ _ _ PB (tight_holds _ _ _ _ T1))|]. intros e m' _ (-> & ->).
  change (repeat 0%Z 32) with (all_zero 32).
  destruct (beq_bytes (kp_pub p) (all_zero 32)); [apply ref_ret; reflexivity|]. cbv zeta.
  eapply ref_let; [apply (ref_sha512 m1 [mR g; mp_pub kp; mess] [sR x; kp_pub p; b]);
    constructor; [exact KR|]; constructor; [exact PB|]; constructor; [exact M|constructor]|].
  intros hr m2 G2 S2. up G2. apply ref_false.
  eapply ref_bind; [exact (ref_efe _ _ _ (shows_holds _ _ _ _ S2))|]. intros h hb m' _ (-> & -> & ->).
  eapply ref_bind; [exact (ref_modQ _ _ _ (shows_holds _ _ _ _ S2))|]. intros hq hqb m3 G3 T3. up G3.
  eapply ref_bind; [exact (ref_gdecode _ _ _ PB)|]. intros A0 A0' m' _ (-> & ->).
  eapply ref_bind; [apply ref_lift|]. intros A A' m' _ (-> & ->).
  eapply ref_bind; [apply ref_lift|]. intros B B' m' _ (-> & ->).
  eapply ref_let; [exact (ref_readh _ _ _ (tight_holds _ _ _ _ T3))|]. intros u m' _ (-> & ->).
  eapply ref_let; [exact (ref_readh _ _ _ KS)|]. intros u m' _ (-> & ->).
  eapply ref_bind; [apply ref_lift|]. intros C C' m' _ (-> & ->).
  eapply ref_bind; [apply ref_gencode|]. intros er erb m4 G4 T4. up G4.
  exact (ref_same_is _ _ _ _ (ref_equal _ _ _ _ _ (tight_holds _ _ _ _ T4) KR)).
Qed.

(** ** Writes to arrays that are new since [b] *)
Definition refinesb {A X} (b : mem) (p : prog A) (m : mem) (v : res X) (R : A -> X -> mem -> Prop) : Prop :=
  quiet p m /\ grows b (snd (exec p m)) /\ agrees R (fst (exec p m)) v (snd (exec p m)).
Lemma refb_of {A X} b (p : prog A) m (v : res X) R : grows b m -> refines p m v R -> refinesb b p m v R.
Proof. intros G (Q & G' & K). split; [exact Q|]. split; [exact (grows_trans _ _ _ G G')|exact K]. Qed.
Lemma refb_bind {A B X Y} b (p : prog A) (f : A -> prog B) m (v : res X) (g : X -> res Y) R R' :
  refinesb b p m v R ->
  (forall a x m', grows b m' -> R a x m' -> refinesb b (f a) m' (g x) R') ->
  refinesb b (bindp p f) m (bind v g) R'.
Proof.
  intros (Q & G & K) F. destruct (exec p m) as [r m'] eqn:E. cbn [fst snd] in *.
  split.
  - apply quiet_bind; [exact Q|]. intros a m1 E1. rewrite E in E1. injection E1 as -> ->.
    destruct v as [x|e|]; cbn in K; try contradiction. apply (F a x m1 G K).
  - rewrite exec_bind, E. destruct r as [a|e|], v as [x|e'|]; cbn in K; try contradiction; cbn [bind fst snd agrees].
    + destruct (F a x m' G K) as (_ & G' & K'). split; assumption.
    + split; [exact G|exact K].
    + split; [exact G|exact I].
Qed.
Lemma refb_refl {A X} (p : prog A) m (v : res X) R : refinesb m p m v R -> refines p m v R.
Proof. exact (fun K => K). Qed.

Lemma upd_firstn_skipn (l : bytes) : forall off len i v, i < len -> off + i < length l ->
  firstn len (skipn off (upd l (off + i) v)) = upd (firstn len (skipn off l)) i v.
Proof.
  induction l as [|x l IH]; intros off len i v L1 L2; cbn [length] in L2; [lia|].
  destruct off as [|off].
  - cbn [skipn Nat.add]. clear IH L2. revert len i L1. generalize (x :: l). clear. intros l.
    induction l as [|y l IH]; intros [|len] [|i] L; try lia; try reflexivity. cbn. f_equal. apply IH. lia.
  - cbn [skipn Nat.add upd]. apply IH; lia.
Qed.
Lemma set_own m k i v : wf_sl m k -> i < s_len k -> forall b, grows b m -> is_new b k ->
  exists m', exec (set k i v) m = (Ok tt, m') /\ quiet (set k i v) m /\ grows b m' /\
    wf_sl m' k /\ rd m' k = upd (rd m k) i v /\
    forall s, s_arr s <> s_arr k -> (wf_sl m s -> wf_sl m' s) /\ rd m' s = rd m s.
Proof.
  intros W L b G (n & EA & LN). destruct (wf_arr m k W) as (l & A1 & A2 & A3). destruct W as (N & W1 & W2).
  exists (set_cell m (s_arr k) (s_off k + i) v).
  unfold set. replace (i <? s_len k) with true by (symmetry; apply Nat.ltb_lt; exact L).
  destruct (nth_error_lt l (s_off k + i)) as (x & X); [lia|].
  assert (C : cell m (s_arr k) (s_off k + i) = Some x) by (unfold cell; rewrite A1; exact X).
  cbn [exec quiet ret]. rewrite C. rewrite EA in *. cbn in A1.
  assert (LO : n < length (m_own m)) by (apply nth_error_Some; rewrite A1; discriminate).
  assert (AR : arr (set_cell m (Own n) (s_off k + i) v) (Own n) = Some (upd l (s_off k + i) v)).
  { unfold arr, set_cell. cbn [m_own]. assert (NL : @nth bytes n (m_own m) [] = l) by (apply nth_error_nth; exact A1). rewrite NL. rewrite set_nth_same by exact LO. rewrite set_nth_upd by lia. reflexivity. }
  split; [reflexivity|]. split; [split; [intros j; discriminate|exact I]|]. split; [|split; [|split]].
  - destruct G as (G1 & new & G2). split; [exact G1|]. cbn [m_own set_cell].
    exists (set_nth new (n - length (m_own b)) (set_nth (nth n (m_own m) []) (s_off k + i) v)).
    rewrite G2. unfold set_nth. rewrite firstn_app. rewrite firstn_all2 by lia. rewrite <- app_assoc. f_equal. f_equal.
    f_equal. rewrite skipn_app. rewrite skipn_all2 by lia. cbn [app]. f_equal. lia.
  - unfold wf_sl, array_of. rewrite EA, AR. rewrite upd_length. split; [discriminate|]. split; [exact W1|lia].
  - unfold rd, array_of. rewrite EA, AR. change (arr m (Own n)) with (nth_error (m_own m) n). rewrite A1. apply upd_firstn_skipn; lia.
  - intros s NE. assert (AS : arr (set_cell m (Own n) (s_off k + i) v) (s_arr s) = arr m (s_arr s)).
    { destruct (s_arr s) as [j|j]; [reflexivity|]. unfold arr, set_cell. cbn [m_own]. apply set_nth_other; [exact LO|congruence]. }
    unfold wf_sl, rd, array_of. rewrite AS. auto.
Qed.
Lemma nth_error_byte (l : bytes) i : i < length l -> nth_error l i = Some (byte_at l i).
Proof. intros L. destruct (nth_error_lt l i L) as (x & X). rewrite X. unfold byte_at. rewrite (nth_error_nth _ _ 0%Z X). reflexivity. Qed.
Lemma upd_split l : forall i v, i < length l -> upd l i v = firstn i l ++ v :: skipn (S i) l.
Proof. intros i v L. rewrite <- set_nth_upd by exact L. reflexivity. Qed.
Lemma xor_loop_ok b salt : forall n i m k kb sb, grows b m -> is_new b k -> holds m k kb -> holds m salt sb -> s_arr salt <> s_arr k ->
  refinesb b (xor_loop n i k salt) m (xor_prefix n (skipn i kb) (skipn i sb))
    (fun _ x m' => holds m' k (firstn i kb ++ x)).
Proof.
  induction n as [|n IH]; intros i m k kb sb G N K S NE.
  - cbn [xor_loop xor_prefix]. split; [exact I|]. split; [exact G|]. cbn. rewrite firstn_skipn. exact K.
  - cbn [xor_loop xor_prefix].
    pose proof (holds_len _ _ _ K) as LK. pose proof (holds_len _ _ _ S) as LS.
    destruct (Nat.lt_ge_cases i (length kb)) as [Lk|Lk].
    2:{ destruct (idx_panic m k i ltac:(lia)) as (E & Q). rewrite skipn_all2 by lia.
        split; [|split].
        - apply quiet_bind; [exact Q|]. intros a m' E'. rewrite E in E'. discriminate.
        - rewrite exec_bind, E. exact G.
        - rewrite exec_bind, E. exact I. }
    destruct (idx_ok m k i (proj1 K) ltac:(lia)) as (E1 & Q1). rewrite (proj2 K) in E1.
    rewrite (skipn_cons kb i (byte_at kb i)) by (apply nth_error_byte; exact Lk).
    destruct (Nat.lt_ge_cases i (length sb)) as [Ls|Ls].
    2:{ destruct (idx_panic m salt i ltac:(lia)) as (E & Q). rewrite (skipn_all2 sb) by lia.
        split; [|split].
        - apply quiet_bind; [exact Q1|]. intros a m' E'. rewrite E1 in E'. injection E' as <- <-.
          apply quiet_bind; [exact Q|]. intros a m' E'. rewrite E in E'. discriminate.
        - rewrite exec_bind, E1, exec_bind, E. exact G.
        - rewrite exec_bind, E1, exec_bind, E. exact I. }
    destruct (idx_ok m salt i (proj1 S) ltac:(lia)) as (E2 & Q2). rewrite (proj2 S) in E2.
    rewrite (skipn_cons sb i (byte_at sb i)) by (apply nth_error_byte; exact Ls).
    destruct (set_own m k i (Z.lxor (byte_at kb i) (byte_at sb i)) (proj1 K) ltac:(lia) b G N) as (m1 & E3 & Q3 & G3 & W3 & R3 & O3).
    rewrite (proj2 K) in R3.
    assert (K1 : holds m1 k (upd kb i (Z.lxor (byte_at kb i) (byte_at sb i)))) by (split; assumption).
    assert (S1 : holds m1 salt sb).
    { destruct (O3 salt NE) as (O1 & O2). split; [apply O1; apply S|]. rewrite O2. apply S. }
    specialize (IH (Datatypes.S i) m1 k _ sb G3 N K1 S1 NE).
    set (z := Z.lxor (byte_at kb i) (byte_at sb i)) in *.
    assert (SK : skipn (Datatypes.S i) (upd kb i z) = skipn (Datatypes.S i) kb).
    { rewrite upd_split by exact Lk. rewrite skipn_app, firstn_length.
      rewrite skipn_all2 by (rewrite firstn_length; lia). cbn [app].
      replace (Datatypes.S i - Nat.min i (length kb)) with 1 by lia. reflexivity. }
    assert (FK : firstn (Datatypes.S i) (upd kb i z) = firstn i kb ++ [z]).
    { rewrite upd_split by exact Lk. rewrite firstn_app, firstn_length.
      rewrite firstn_all2 by (rewrite firstn_length; lia).
      replace (Datatypes.S i - Nat.min i (length kb)) with 1 by lia. reflexivity. }
    rewrite SK, FK in IH. destruct IH as (QI & GI & KI).
    assert (EX : exec (let* x := idx k i in (let* y := idx salt i in (let* _ := set k i (Z.lxor x y) in xor_loop n (Datatypes.S i) k salt))) m
      = exec (xor_loop n (Datatypes.S i) k salt) m1).
    { rewrite exec_bind, E1, exec_bind, E2, exec_bind. fold z. rewrite E3. reflexivity. }
    split; [|split].
    + apply quiet_bind; [exact Q1|]. intros a m' E'. rewrite E1 in E'. injection E' as <- <-.
      apply quiet_bind; [exact Q2|]. intros a m' E'. rewrite E2 in E'. injection E' as <- <-.
      apply quiet_bind; [exact Q3|]. intros a m' E'. fold z in E'. rewrite E3 in E'. injection E' as <- <-. exact QI.
    + rewrite EX. exact GI.
    + rewrite EX. destruct (fst (exec _ m1)), (xor_prefix n _ _); cbn [bind agrees] in *; try contradiction; try exact KI.
      rewrite <- app_assoc in KI. exact KI.
Qed.

(** ** GetSharedKey *)
Lemma ref_shared_key n m k p pub pb salt sb : holds_opt (holds_priv m) k p -> holds m pub pb -> holds m salt sb ->
  refines (mshared_key H512 H256 spare n k pub salt) m (get_shared_key H512 H256 n p pb sb) (shows m).
Proof.
  intros K P S. unfold mshared_key, get_shared_key.
  eapply ref_bind; [exact (ref_ege _ _ _ P)|]. intros g gb m' _ (-> & -> & ->).
  eapply ref_bind; [exact (ref_gdecode _ _ _ P)|]. intros c c' m' _ (-> & ->).
  eapply ref_bind; [apply ref_lift|]. intros A A' m' _ (-> & ->).
  destruct k as [k|], p as [p|]; try contradiction; [|apply ref_panic]. cbn in K.
  change (lift (deref (Some k))) with (lift (Ok k)). rewrite lift_ok. change (deref (Some p)) with (Ok p).
  match goal with |- refines _ _ (bind (Ok p) ?g) _ => change (bind (Ok p) g) with (g p); cbv beta end.
  eapply ref_bind; [exact (ref_prepare _ _ _ K)|]. intros a ab m1 G1 S1. up G1. pose proof (proj1 (proj1 S)) as S0.
  eapply ref_bind; [exact (ref_mult _ _ _ _ (shows_holds _ _ _ _ S1))|]. intros el el' m' _ (-> & ->).
  apply refb_refl.
  eapply refb_bind; [apply refb_of; [apply grows_refl|apply ref_gencode]|]. intros sk skb m2 G2 T2. up G2.
  assert (NE : s_arr salt <> s_arr sk).
  { destruct (tight_newer _ _ _ _ T2) as (N1 & _). intros E.
    rewrite <- E in N1. exact (S0 N1). }
  pose proof (xor_loop_ok m1 salt n 0 m2 sk skb sb G2 (proj2 (proj2 (proj1 T2))) (tight_holds _ _ _ _ T2) S NE) as X.
  eapply refb_bind; [exact X|]. intros u x m3 G3 K3. cbn [firstn app] in K3.
  eapply refb_of; [exact G3|].
  eapply ref_imp; [exact (ref_sha256 _ _ _ K3)|]. intros s y m4 G4 Sh.
  exact (shows_older _ _ _ _ _ (grows_trans _ _ _ G1 G3) Sh).
Qed.

Lemma ref_fail {A B X Y} (p : prog A) (f : A -> prog B) m e (R : A -> X -> mem -> Prop) (R' : B -> Y -> mem -> Prop) :
  refines p m (Err e) R -> refines (bindp p f) m (Err e) R'.
Proof.
  intros (Q & G & K). destruct (exec p m) as [r m'] eqn:E. cbn [fst snd] in *. destruct r; cbn in K; try contradiction.
  split; [|rewrite exec_bind, E; split; [exact G|exact K]].
  apply quiet_bind; [exact Q|]. intros a m1 E1. rewrite E in E1. discriminate E1.
Qed.

(** ** encode and decode *)
Lemma pad_fill (d : bytes) : let n := 16 - length d mod 16 in
  over (d ++ repeat 0%Z n) (length d) (repeat (Z.of_nat n) n) = pad d.
Proof.
  intros n. unfold over, pad. fold n. rewrite firstn_app, Nat.sub_diag, firstn_all. cbn [firstn]. rewrite app_nil_r.
  rewrite skipn_all2 by (rewrite app_length, !repeat_length; lia). rewrite app_nil_r. reflexivity.
Qed.
Lemma ref_encode m mess mb key kb iv ivb : holds m mess mb -> holds m key kb -> holds m iv ivb ->
  refines (mencode aesE mess key iv) m (bc_encode aesE mb kb ivb) (tight m).
Proof.
  intros KM KK KI. unfold mencode, bc_encode.
  eapply ref_let; [exact (ref_readh _ _ _ KK)|]. intros u m' _ (-> & ->).
  destruct (negb (aes_key_ok kb)); [apply ref_err|]. rewrite (holds_len _ _ _ KM). cbv zeta.
  set (n := 16 - length mb mod 16).
  apply (ref_swap m mess mb (fun buf d => let* _ := fill buf 0 d in
    (let* _ := fill buf (length mb) (repeat (Z.of_nat n) n) in
     (let* iv0 := read iv in (let* p := read buf in (let* c := lift (crypt_blocks (cbc_enc aesE) kb iv0 p) in fresh c 0)))))
    (length mb + n) _ _ KM).
  set (t := SL (last_own m) 0 (length mb + n) (length mb + n)).
  set (k2 := fun _ : unit => let* iv0 := read iv in (let* p := read t in (let* c := lift (crypt_blocks (cbc_enc aesE) kb iv0 p) in fresh c 0))).
  destruct (fill_push m (repeat 0%Z (length mb + n)) (length mb + n) (length mb + n) 0 mb
     (fun _ => let* _ := fill t (length mb) (repeat (Z.of_nat n) n) in k2 tt)) as (E1 & Q1);
    [lia|rewrite repeat_length; lia|].
  rewrite over_repeat in E1, Q1 by lia. replace (length mb + n - length mb) with n in E1, Q1 by lia.
  destruct (fill_push m (mb ++ repeat 0%Z n) (length mb + n) (length mb + n) (length mb) (repeat (Z.of_nat n) n) k2) as (E2 & Q2);
    [rewrite repeat_length; lia|rewrite app_length, repeat_length; lia|].
  pose proof (pad_fill mb) as PF. cbv zeta in PF. fold n in PF. rewrite PF in E2, Q2. fold t in E1, Q1, E2, Q2.
  assert (LP : length (pad mb) = length mb + n) by (unfold pad; fold n; rewrite app_length, repeat_length; reflexivity).
  assert (T : tight m t (pad mb) (push m (pad mb))).
  { split; [|exact (eq_sym LP)]. split; [apply wf_push; lia|]. split; [|apply new_push].
    unfold t. rewrite rd_push. cbn [skipn]. apply firstn_all2. lia. }
  assert (KR : refines (k2 tt) (push m (pad mb)) (crypt_blocks (cbc_enc aesE) kb ivb (pad mb)) (tight m)).
  { unfold k2. pose proof (grows_push m (pad mb)) as G. up G.
    eapply ref_let; [exact (ref_readh _ _ _ KI)|]. intros u m' _ (-> & ->).
    eapply ref_let; [exact (ref_readh _ _ _ (tight_holds _ _ _ _ T))|]. intros u m' _ (-> & ->).
    apply ref_eta. eapply ref_bind; [apply ref_lift|]. intros c c' m' _ (-> & ->).
    eapply ref_imp; [apply ref_tight|]. intros s b m' _ T'. exact (tight_older _ _ _ _ _ G T'). }
  destruct KR as (QR & GR & AR).
  unfold refines.
  assert (EM : forall C (h : sl -> prog C), exec (bindp (make (length mb + n)) h) m = exec (h t) (push m (repeat 0%Z (length mb + n)))) by reflexivity.
  assert (QM : forall C (h : sl -> prog C), quiet (bindp (make (length mb + n)) h) m = quiet (h t) (push m (repeat 0%Z (length mb + n)))) by reflexivity.
  rewrite EM, QM. unfold k2 in *.
  rewrite E1, E2. split; [exact (Q1 (Q2 QR))|]. split; [exact (grows_trans _ _ _ (grows_push _ _) GR)|exact AR].
Qed.
Lemma check_loop_ok m buf b v : holds m buf b -> forall n i, i + n <= length b ->
  refines (check_loop n i buf v) m (if forallb (fun x => (x =? v)%Z) (firstn n (skipn i b)) then Ok tt else Err ErrPaddingByte) (same m).
Proof.
  intros K. induction n as [|n IH]; intros i L.
  - cbn. apply ref_ret. split; reflexivity.
  - cbn [check_loop]. rewrite (skipn_cons b i (byte_at b i)) by (apply nth_error_byte; lia).
    cbn [firstn forallb]. destruct (idx_ok m buf i (proj1 K)) as (E & Q); [rewrite (holds_len _ _ _ K); lia|].
    rewrite (proj2 K) in E.
    eapply (ref_let _ _ m (byte_at b i) _ (same m)); [eapply ref_exec; [exact E|exact Q|apply grows_refl|split; reflexivity]|].
    intros x m' _ (-> & ->). destruct (byte_at b i =? v)%Z; cbn [andb]; [apply IH; lia|apply ref_err].
Qed.
Lemma ref_decode m ct cb key kb iv ivb : holds m ct cb -> holds m key kb -> holds m iv ivb ->
  refines (mdecode aesD ct key iv) m (bc_decode aesD cb kb ivb) (shows m).
Proof.
  intros KC KK KI. unfold mdecode, bc_decode.
  eapply ref_let; [exact (ref_readh _ _ _ KK)|]. intros u m' _ (-> & ->).
  destruct (negb (aes_key_ok kb)); [apply ref_err|].
  eapply ref_let; [exact (ref_readh _ _ _ KI)|]. intros u m' _ (-> & ->).
  eapply ref_let; [exact (ref_readh _ _ _ KC)|]. intros u m' _ (-> & ->).
  eapply ref_bind; [apply ref_lift|]. intros p p' m' _ (-> & ->). rename p' into p.
  eapply ref_let; [apply ref_tight|]. intros buf m1 G1 T1. cbv zeta.
  pose proof (tight_holds _ _ _ _ T1) as K1. rewrite (holds_len _ _ _ K1). unfold unpad.
  destruct p as [|b0 p0]; [apply ref_panic|]. set (p := b0 :: p0) in *.
  assert (LP : 1 <= length p) by (cbn [p length]; lia).
  replace (length p =? 0) with false by (symmetry; apply Nat.eqb_neq; lia). cbv zeta.
  destruct (idx_ok m1 buf (length p - 1) (proj1 K1)) as (E & Q); [rewrite (holds_len _ _ _ K1); lia|].
  rewrite (proj2 K1) in E.
  eapply (ref_let _ _ m1 (byte_at p (length p - 1)) _ (same m1)); [eapply ref_exec; [exact E|exact Q|apply grows_refl|split; reflexivity]|].
  intros v m' _ (-> & ->). set (v := byte_at p (length p - 1)) in *.
  destruct ((v =? 0) || (16 <? v))%Z eqn:EV; [apply ref_err|]. apply orb_false_iff in EV. destruct EV as (V0 & V16).
  destruct (Z.of_nat (length p) - v <? 0)%Z eqn:MS; [apply ref_panic|]. apply Z.ltb_ge in MS.
  assert (EMS : length p - Z.to_nat v <= length p /\
      skipn (Z.to_nat (Z.of_nat (length p) - v)) p = skipn (length p - Z.to_nat v) p /\
      firstn (Z.to_nat (Z.of_nat (length p) - v)) p = firstn (length p - Z.to_nat v) p).
  { split; [lia|]. destruct (Z.le_gt_cases 0 v) as [V|V].
    - replace (Z.to_nat (Z.of_nat (length p) - v)) with (length p - Z.to_nat v) by lia. split; reflexivity.
    - replace (Z.to_nat v) with 0 by lia. rewrite Nat.sub_0_r. rewrite !skipn_all2, !firstn_all2 by lia. split; reflexivity. }
  destruct EMS as (LE & -> & ->). set (ms := length p - Z.to_nat v) in *. clearbody ms.
  pose proof (check_loop_ok m1 buf p v K1 (length p - ms) ms ltac:(lia)) as CL.
  rewrite (firstn_all2 (skipn ms p)) in CL by (rewrite skipn_length; lia).
  destruct (forallb (fun x => (x =? v)%Z) (skipn ms p)).
  - eapply ref_let; [exact CL|]. intros u m' _ (_ & ->).
    destruct (reslice_ok m1 buf p 0 ms K1 ltac:(lia) LE) as (t & Et & Kt & At). rewrite Et.
    apply ref_ret. cbn [skipn] in Kt. rewrite Nat.sub_0_r in Kt. split; [apply Kt|]. split; [apply Kt|].
    destruct T1 as ((_ & _ & (n & N1 & N2)) & _). exists n. rewrite At. auto.
  - exact (ref_fail _ _ _ _ _ _ CL).
Qed.

(** ** append *)
Lemma set_cell_own b m n l i v : grows b m -> length (m_own b) <= n -> arr m (Own n) = Some l -> i < length l ->
  let m' := set_cell m (Own n) i v in
  grows b m' /\ arr m' (Own n) = Some (set_nth l i v) /\ forall a, a <> Own n -> arr m' a = arr m a.
Proof.
  intros (G1 & new & G2) LN A L m'. unfold m'. cbn in A.
  assert (LO : n < length (m_own m)) by (apply nth_error_Some; rewrite A; discriminate).
  assert (NL : @nth bytes n (m_own m) [] = l) by (apply nth_error_nth; exact A).
  split; [|split].
  - split; [exact G1|]. cbn [m_own set_cell].
    exists (set_nth new (n - length (m_own b)) (set_nth (nth n (m_own m) []) i v)).
    rewrite G2. unfold set_nth. rewrite firstn_app. rewrite firstn_all2 by lia. rewrite <- app_assoc. f_equal. f_equal.
    f_equal. rewrite skipn_app. rewrite skipn_all2 by lia. cbn [app]. f_equal. lia.
  - unfold arr, set_cell. cbn [m_own]. rewrite NL. apply set_nth_same. exact LO.
  - intros a NE. destruct a as [j|j]; [reflexivity|]. unfold arr, set_cell. cbn [m_own]. apply set_nth_other; [exact LO|congruence].
Qed.
Lemma write_own {A} b n (k : prog A) : length (m_own b) <= n -> forall d m i l, grows b m ->
  arr m (Own n) = Some l -> i + length d <= length l ->
  exists m', grows b m' /\ arr m' (Own n) = Some (over l i d) /\ (forall a, a <> Own n -> arr m' a = arr m a) /\
    exec (write_from (Own n) i d k) m = exec k m' /\ (quiet k m' -> quiet (write_from (Own n) i d k) m).
Proof.
  intros LN. induction d as [|v d IH]; intros m i l G EA L.
  - exists m. unfold over. cbn [length app write_from]. rewrite Nat.add_0_r, firstn_skipn. auto.
  - cbn [length] in L. destruct (nth_error_lt l i) as (x & X); [lia|].
    assert (C : cell m (Own n) i = Some x) by (unfold cell; rewrite EA; exact X).
    destruct (set_cell_own b m n l i v G LN EA ltac:(lia)) as (G1 & A1 & O1).
    destruct (IH (set_cell m (Own n) i v) (S i) (set_nth l i v) G1 A1) as (m' & G' & A' & O' & E' & Q'); [rewrite set_nth_length; lia|].
    exists m'. rewrite over_cons in A' by lia. split; [exact G'|]. split; [exact A'|].
    split; [intros a NE; rewrite O', O1 by exact NE; reflexivity|].
    cbn [write_from exec quiet]. rewrite C. split; [exact E'|]. intros K. split; [intros j; discriminate|]. exact (Q' K).
Qed.
Lemma append_fresh m s sb t tb : holds m s sb -> holds m t tb -> s_cap s < s_len s + s_len t ->
  refines (go_append spare s t) m (Ok (sb ++ tb)) (shows m).
Proof.
  intros K1 K2 L. unfold go_append. replace (s_len s + s_len t <=? s_cap s) with false by (symmetry; apply Nat.leb_gt; exact L).
  eapply ref_let; [exact (ref_readh _ _ _ K1)|]. intros u m' _ (-> & ->).
  eapply ref_let; [exact (ref_readh _ _ _ K2)|]. intros u m' _ (-> & ->).
  eapply ref_imp; [apply ref_fresh|]. intros r b m' _ (Sh & _). exact Sh.
Qed.
Lemma over_rd (l : bytes) off n d : off + n + length d <= length l ->
  firstn (n + length d) (skipn off (over l (off + n) d)) = firstn n (skipn off l) ++ d.
Proof.
  intros L. unfold over. rewrite skipn_app, firstn_length. rewrite (proj2 (Nat.sub_0_le _ _)) by lia. cbn [skipn].
  rewrite app_assoc, firstn_app.
  assert (E : skipn off (firstn (off + n) l) = firstn n (skipn off l)) by (rewrite skipn_firstn_comm; f_equal; lia).
  rewrite E. rewrite firstn_all2 by (rewrite app_length, firstn_length, skipn_length; lia).
  rewrite (proj2 (Nat.sub_0_le _ _)) by (rewrite app_length, firstn_length, skipn_length; lia). apply app_nil_r.
Qed.
(** append to an array that is new since b, in place or not *)
Lemma append_own b m s sb t tb : grows b m -> is_new b s -> holds m s sb -> holds m t tb -> s_arr t <> s_arr s ->
  refinesb b (go_append spare s t) m (Ok (sb ++ tb)) (shows b).
Proof.
  intros G (n & EA & LN) K1 K2 NE.
  destruct (Nat.lt_ge_cases (s_cap s) (s_len s + s_len t)) as [L|L].
  - apply refb_of; [exact G|]. eapply ref_imp; [apply append_fresh; eassumption|].
    intros r x m' _ Sh. exact (shows_older _ _ _ _ _ G Sh).
  - unfold go_append. replace (s_len s + s_len t <=? s_cap s) with true by (symmetry; apply Nat.leb_le; exact L).
    destruct (wf_arr m s (proj1 K1)) as (l & A1 & A2 & A3). rewrite EA in A1.
    destruct (read_ok m t (proj1 K2)) as (Er & Qr). rewrite (proj2 K2) in Er. pose proof (holds_len _ _ _ K2) as LT.
    set (r := SL (s_arr s) (s_off s) (s_len s + s_len t) (s_cap s)).
    destruct (write_own b n (ret r) LN tb m (s_off s + s_len s) l G A1 ltac:(lia)) as (m' & G' & A' & O' & E' & Q').
    rewrite <- EA in E', Q', A'.
    split; [|split].
    + apply quiet_bind; [exact Qr|]. intros u m1 E1. rewrite Er in E1. injection E1 as <- <-. apply Q'. exact I.
    + rewrite exec_bind, Er, E'. exact G'.
    + rewrite exec_bind, Er, E'. cbn [exec ret fst snd agrees].
      destruct K1 as ((W1 & W2 & W3) & R1).
      split; [|split].
      * unfold wf_sl, array_of, r. cbn [s_arr s_off s_len s_cap]. rewrite A'. split; [discriminate|].
        rewrite over_length by lia. lia.
      * unfold rd, array_of, r. cbn [s_arr s_off s_len]. rewrite A', LT, over_rd by lia. f_equal.
        rewrite <- R1. unfold rd. rewrite A2. reflexivity.
      * exists n. auto.
Qed.

(** ** Encrypt and Decrypt *)
Lemma ref_encrypt m s sp r rp random inp ib : holds_pair m s sp -> holds_pair m r rp -> holds m inp ib ->
  refines (mencrypt H512 H256 aesE spare s r random inp) m
    (encrypt H512 H256 aesE (new_block_cipher sp rp) random ib) (fun t y m' => shows m t (fst y) m').
Proof.
  intros (SP & _) (_ & RB) KI. unfold mencrypt, encrypt, new_block_cipher. cbn [bc_keylen bc_sender bc_recipient].
  rewrite (holds_len _ _ _ RB). set (n := length (kp_pub rp)). cbv zeta.
  apply (ref_random m n random (fun salt rest =>
    let* sharedKey := mshared_key H512 H256 spare n (mp_priv s) (mp_pub r) salt in
    (let* ivData := make 16 in (let* _ := read_full_into ivData rest in
    (let* buf := mencode aesE inp sharedKey ivData in
    (let* t := go_append spare salt ivData in go_append spare t buf)))))).
  intros salt m1 _ T1 G1. cbn [fst snd]. up G1.
  assert (SP1 : holds_opt (holds_priv m1) (mp_priv s) (kp_priv sp)).
  { unfold holds_opt. destruct (mp_priv s), (kp_priv sp); try contradiction; [exact (priv_grows _ _ _ _ G1 SP)|exact I]. }
  eapply ref_bind; [exact (ref_shared_key n _ _ _ _ _ _ _ SP1 RB (tight_holds _ _ _ _ T1))|]. intros sk skb m2 G2 S2. up G2.
  apply (ref_random m2 16 (skipn n random) (fun ivData _ =>
    (let* buf := mencode aesE inp sk ivData in
    (let* t := go_append spare salt ivData in go_append spare t buf)))).
  intros iv m3 L3 T3 G3. cbn [fst snd]. up G3.
  eapply ref_bind; [exact (ref_encode _ _ _ _ _ _ _ KI (shows_holds _ _ _ _ S2) (tight_holds _ _ _ _ T3))|]. intros buf bb m4 G4 T4. up G4.
  pose proof (tight_holds _ _ _ _ T3) as K3.
  assert (CS : s_cap salt < s_len salt + s_len iv).
  { rewrite (proj2 T1), (holds_len _ _ _ (tight_holds _ _ _ _ T1)), (holds_len _ _ _ K3), (firstn_length 16). lia. }
  pose proof (append_fresh m4 salt _ iv _ (tight_holds _ _ _ _ T1) K3 CS) as AF.
  apply refb_refl.
  set (out := (firstn n random ++ firstn 16 (skipn n random)) ++ bb).
  assert (G04 : grows m m4) by eauto 10 using grows_trans.
  assert (KB : arr m4 (s_arr buf) <> None) by exact (proj1 (proj1 (tight_holds _ _ _ _ T4))).
  assert (AF' : refinesb m4 (let* t := go_append spare salt iv in go_append spare t buf) m4 (Ok out) (shows m4)).
  { change (Ok out) with (bind (Ok (firstn n random ++ firstn 16 (skipn n random))) (fun x => Ok (x ++ bb))).
    eapply refb_bind; [apply refb_of; [apply grows_refl|exact AF]|].
    intros t tb m5 G5 S5. up G5.
    apply append_own; [exact G5|exact (proj2 (proj2 S5))|exact (shows_holds _ _ _ _ S5)|exact (tight_holds _ _ _ _ T4)|].
    intros E. destruct S5 as (_ & _ & (j & E5 & L5)). rewrite E, E5 in KB. apply KB. cbn. apply nth_error_None. exact L5. }
  destruct AF' as (Q & G & K). split; [exact Q|]. split; [exact G|].
  destruct (fst (exec _ m4)) as [t| |]; try contradiction. cbn in K |- *. exact (shows_older _ _ _ _ _ G04 K).
Qed.
Lemma reslice_slice m s b lo hi : holds m s b -> (lo <= hi -> hi <= length b) ->
  refines (lift (reslice s lo hi)) m (slice b lo hi) (fun t x m' => holds m t x /\ m' = m).
Proof.
  intros K L. unfold slice. destruct (Nat.ltb_spec hi lo) as [H|H].
  - cbn [orb]. unfold reslice. replace (lo <=? hi) with false by (symmetry; apply Nat.leb_gt; exact H). apply ref_panic.
  - specialize (L H). replace (length b <? hi) with false by (symmetry; apply Nat.ltb_ge; exact L). cbn [orb].
    destruct (reslice_ok m s b lo hi K H L) as (t & E & K' & _). rewrite E. apply ref_ret. split; [exact K'|reflexivity].
Qed.
Lemma ref_decrypt m s sp r rp inp ib : holds_pair m s sp -> holds_pair m r rp -> holds m inp ib ->
  refines (mdecrypt H512 H256 aesD spare s r inp) m (decrypt H512 H256 aesD (new_block_cipher sp rp) ib) (shows m).
Proof.
  intros (_ & SB) (RP & RB) KI. unfold mdecrypt, decrypt, new_block_cipher. cbn [bc_keylen bc_sender bc_recipient].
  rewrite (holds_len _ _ _ RB), (holds_len _ _ _ KI). set (n := length (kp_pub rp)). cbv zeta.
  destruct (length ib <? 64) eqn:L; [apply ref_err|]. apply Nat.ltb_ge in L.
  destruct (Nat.le_gt_cases n (length ib)) as [LN|LN].
  - eapply ref_bind; [apply (reslice_slice m inp ib 0 n KI); lia|]. intros salt sb m' _ (K1 & ->).
    eapply ref_bind; [apply (reslice_slice m inp ib n 48 KI); lia|]. intros iv ivb m' _ (K2 & ->).
    eapply ref_bind; [apply (reslice_slice m inp ib 48 (length ib) KI); lia|]. intros enc eb m' _ (K3 & ->).
    eapply ref_bind; [exact (ref_shared_key n _ _ _ _ _ _ _ RP SB K1)|]. intros sk skb m1 G1 S1. up G1.
    eapply ref_imp; [exact (ref_decode _ _ _ _ _ _ _ K3 (shows_holds _ _ _ _ S1) K2)|].
    intros t x m2 G2 Sh. exact (shows_older _ _ _ _ _ G1 Sh).
  - (* the key is longer than 48 bytes: a panic, from the first slice expression or the second *)
    assert (P : slice ib 0 n = Panic).
    { unfold slice. replace (length ib <? n) with true by (symmetry; apply Nat.ltb_lt; exact LN). rewrite orb_true_r. reflexivity. }
    rewrite P. cbn [bind].
    destruct (reslice inp 0 n) as [t|e|] eqn:E; [|unfold reslice in E; destruct ((0 <=? n) && (n <=? s_cap inp)); discriminate E|apply ref_panic].
    rewrite lift_ok. unfold reslice at 1.
    replace (n <=? 48) with false by (symmetry; apply Nat.leb_gt; lia). cbn [andb]. apply ref_panic.
Qed.
End Hashing.
