(** Lemmas behind C78: expressions over field elements. *)
From Coq Require Import List ZArith Lia Bool Ring Field.
From Verif Require Import GoBase FieldModel FieldSpec FieldProofs ByteLemmas EncodeProofs Fp Curve Tables BasePoint GroupModel GroupSpec
  FieldPow GroupProofs PropFieldLemmas PointCodec ExprModel ExprSpec.
Import ListNotations.
Open Scope Z_scope.

Lemma Fpow_3 v : Fpow v 3 = (v * v * v)%F.
Proof. change 3 with (1 + 1 + 1). rewrite !Fpow_add by discriminate. now rewrite !Fpow_1. Qed.
Lemma Fpow_7 v : Fpow v 7 = (v * v * v * (v * v * v) * v)%F.
Proof. change 7 with (3 + 3 + 1). rewrite !Fpow_add by discriminate. now rewrite !Fpow_3, Fpow_1. Qed.
Lemma root_cand u v : Fsqrt_cand u v = root u v.
Proof.
  unfold Fsqrt_cand, root. change ((p25519 - 5) / 8) with e252. rewrite Fpow_3, Fpow_7.
  replace (u * (v * v * v * (v * v * v) * v))%F with (v * v * v * (v * v * v) * v * u)%F by ring.
  generalize (Fpow (v * v * v * (v * v * v) * v * u) e252). intros z. ring.
Qed.
Lemma summands_pos e : 1 <= summands e.
Proof. induction e; cbn [summands]; lia. Qed.
Lemma const_ok c : rF (const_fe c) = const_value c /\ bnd 101 (const_fe c).
Proof.
  destruct c; unfold const_fe, const_value; split;
    first [exact rF_zero|exact rF_one|exact rF_two|exact rF_d|exact rF_d2|exact rF_I|exact bnd_zero|exact bnd_one|exact bnd_two|exact bnd_d|exact bnd_d2|exact bnd_I].
Qed.
Lemma decode_any b : wf_bytes b -> (32 <= length b)%nat ->
  exists f, fe_decode b = Ok f /\ rF f = inF (le_val (firstn 32 b) mod 2 ^ 255) /\ bnd 101 f.
Proof.
  intros W L. rewrite decode_long by assumption.
  destruct (decode_ok (firstn 32 b)) as (f & E & B & V & _); [apply wf_firstn, W|rewrite firstn_length; lia|].
  exists f. split; [exact E|]. split; [|exact B]. unfold rF. apply F_eq. rewrite !val_inF.
  destruct V as (t & Et). replace (feval f) with (le_val (firstn 32 b) mod 2 ^ 255 + t * p25519) by lia.
  apply Z.mod_add, p_nz.
Qed.
Theorem eval_ok e : disciplined e -> exists f, eval e = Ok f /\ rF f = value e /\ bnd (101 * summands e) f.
Proof.
  induction e as [c|f|b|a IHa b IHb|a IHa b IHb|a IHa|a IHa b IHb|a IHa|a IHa|a IHa|a IHa b IHb]; cbn [disciplined eval value summands].
  - intros _. destruct (const_ok c) as (E & B). exists (const_fe c). auto.
  - intros B. exists f. split; [reflexivity|]. split; [reflexivity|exact B].
  - intros (W & L). apply decode_any; assumption.
  - intros (Da & Db & L). destruct (IHa Da) as (x & -> & Ex & Bx). destruct (IHb Db) as (y & -> & Ey & By).
    pose proof (summands_pos a). pose proof (summands_pos b). exists (fe_add x y). split; [reflexivity|].
    rewrite (rF_add _ _ _ _ Bx By) by lia. rewrite Ex, Ey. split; [reflexivity|].
    apply (bnd_add _ _ _ _ _ Bx By); lia.
  - intros (Da & Db & L). destruct (IHa Da) as (x & -> & Ex & Bx). destruct (IHb Db) as (y & -> & Ey & By).
    pose proof (summands_pos a). pose proof (summands_pos b). exists (fe_sub x y). split; [reflexivity|].
    rewrite (rF_sub _ _ _ _ Bx By) by lia. rewrite Ex, Ey. split; [reflexivity|].
    apply (bnd_sub _ _ _ _ _ Bx By); lia.
  - intros Da. destruct (IHa Da) as (x & -> & Ex & Bx). exists (fe_neg x). split; [reflexivity|].
    assert (L : summands a <= 9000).
    { clear -Da. induction a; cbn [summands disciplined] in *; try lia; try tauto. }
    rewrite (rF_neg _ _ Bx) by lia. rewrite Ex. split; [reflexivity|]. apply bnd_neg; [exact Bx|lia].
  - intros (Da & Db & La & Lb). destruct (IHa Da) as (x & -> & Ex & Bx). destruct (IHb Db) as (y & -> & Ey & By).
    assert (Bx' : bnd 330 x) by (apply (bnd_mono _ _ _ Bx); lia). assert (By' : bnd 330 y) by (apply (bnd_mono _ _ _ By); lia).
    exists (fe_mul x y). split; [reflexivity|]. rewrite rF_mul, Ex, Ey by assumption. split; [reflexivity|]. apply bnd_mul; assumption.
  - intros (Da & La). destruct (IHa Da) as (x & -> & Ex & Bx). assert (Bx' : bnd 330 x) by (apply (bnd_mono _ _ _ Bx); lia).
    exists (fe_sq x). split; [reflexivity|]. rewrite rF_sq, Ex by assumption. split; [reflexivity|]. apply bnd_sq; assumption.
  - intros (Da & La). destruct (IHa Da) as (x & -> & Ex & Bx). assert (Bx' : bnd 330 x) by (apply (bnd_mono _ _ _ Bx); lia).
    exists (fe_sq2 x). split; [reflexivity|]. rewrite rF_sq2, Ex by assumption. split; [reflexivity|]. apply bnd_sq2; assumption.
  - intros (Da & La). destruct (IHa Da) as (x & -> & Ex & Bx). assert (Bx' : bnd 330 x) by (apply (bnd_mono _ _ _ Bx); lia).
    exists (fe_invert x). split; [reflexivity|]. rewrite rF_invert, Ex by assumption. split; [reflexivity|]. apply bnd_invert; assumption.
  - intros (Da & Db & La & Lb). destruct (IHa Da) as (x & -> & Ex & Bx). destruct (IHb Db) as (y & -> & Ey & By).
    assert (Bx' : bnd 330 x) by (apply (bnd_mono _ _ _ Bx); lia). assert (By' : bnd 330 y) by (apply (bnd_mono _ _ _ By); lia).
    destruct (rF_sqrt x y Bx' By') as (E & B). exists (fe_sqrt x y). split; [reflexivity|]. rewrite E, Ex, Ey, root_cand. split; [reflexivity|exact B].
Qed.

(** what programs see *)
Lemma encode_ok e : disciplined e -> summands e <= 9 -> see_encode e = Ok (le_bytes 32 (Fp.val (value e))).
Proof.
  intros D L. destruct (eval_ok e D) as (f & E & V & B). unfold see_encode. rewrite E. cbn [bind]. rewrite <- V. f_equal.
  apply fe_encode_rF. apply (bnd_mono _ _ _ B). lia.
Qed.
Lemma equals_e a b : disciplined a -> disciplined b -> summands a <= 9 -> summands b <= 9 ->
  exists r, see_equals a b = Ok r /\ (r = true <-> value a = value b).
Proof.
  intros Da Db La Lb. destruct (eval_ok a Da) as (x & Ex & Vx & Bx). destruct (eval_ok b Db) as (y & Ey & Vy & By).
  unfold see_equals. rewrite Ex, Ey. cbn [bind]. eexists. split; [reflexivity|]. rewrite <- Vx, <- Vy.
  apply fe_equals_rF; [apply (bnd_mono _ _ _ Bx)|apply (bnd_mono _ _ _ By)]; lia.
Qed.
Lemma nonzero_e e : disciplined e -> summands e <= 9 -> exists r, see_is_nonzero e = Ok r /\ (r = true <-> value e <> F0).
Proof.
  intros D L. destruct (eval_ok e D) as (f & E & V & B). unfold see_is_nonzero. rewrite E. cbn [bind]. eexists. split; [reflexivity|].
  rewrite <- V. apply fe_is_nonzero_rF. apply (bnd_mono _ _ _ B). lia.
Qed.
Lemma negative_e e : disciplined e -> summands e <= 9 -> see_is_negative e = Ok (Z.odd (Fp.val (value e))).
Proof.
  intros D L. destruct (eval_ok e D) as (f & E & V & B). unfold see_is_negative. rewrite E. cbn [bind]. f_equal. rewrite <- V.
  rewrite fe_is_negative_rF by (apply (bnd_mono _ _ _ B); lia). reflexivity.
Qed.
(** expressions with the same value cannot be told apart *)
Lemma same_value a b : disciplined a -> disciplined b -> summands a <= 9 -> summands b <= 9 -> value a = value b ->
  see_encode a = see_encode b /\ see_is_nonzero a = see_is_nonzero b /\ see_is_negative a = see_is_negative b /\ see_equals a b = Ok true.
Proof.
  intros Da Db La Lb E. rewrite !encode_ok, !negative_e, E by assumption.
  destruct (nonzero_e a Da La) as (r & -> & I). destruct (nonzero_e b Db Lb) as (r' & -> & I').
  destruct (equals_e a b Da Db La Lb) as (q & -> & J). split; [reflexivity|]. split; [|split; [reflexivity|f_equal; apply J, E]].
  f_equal. apply eq_true_iff_eq. rewrite I, I', E. reflexivity.
Qed.
(** without the discipline: doubling 1 sixty-four times by add gives 0 *)
Fixpoint doubled (n : nat) : fexp := match n with O => XConst COne | S n => XAdd (doubled n) (doubled n) end.
Fixpoint doubled_fe (n : nat) : fe := match n with O => fe_one | S n => let x := doubled_fe n in fe_add x x end.
Lemma eval_doubled n : eval (doubled n) = Ok (doubled_fe n).
Proof. induction n as [|n IH]; [reflexivity|]. cbn [doubled eval doubled_fe]. rewrite IH. reflexivity. Qed.
Lemma value_doubled n : value (doubled n) = inF (2 ^ Z.of_nat n).
Proof.
  induction n as [|n IH]; [reflexivity|]. cbn [doubled value]. rewrite IH, Nat2Z.inj_succ, Z.pow_succ_r by lia.
  rewrite <- inF_add. f_equal. ring.
Qed.
Lemma undisciplined : exists e, see_is_nonzero e = Ok false /\ value e <> F0.
Proof.
  exists (doubled 64). split.
  - unfold see_is_nonzero. rewrite eval_doubled. cbn [bind]. apply f_equal. vm_compute. reflexivity.
  - rewrite value_doubled. intros E. apply (f_equal Fp.val) in E. rewrite val_inF in E. vm_compute in E. discriminate E.
Qed.
(** (1 + 2 + d)^2 and its expansion, with decoded strings *)
Definition ex_b : bytes := repeat 255 32.
Definition ex_lhs : fexp := XSquare (XAdd (XConst COne) (XSub (XDecode ex_b) (XConst CD))).
Definition ex_rhs : fexp :=
  let x := XDecode ex_b in
  XSub (XAdd (XAdd (XConst COne) (XMul (XConst CTwo) (XSub x (XConst CD)))) (XAdd (XSquare x) (XSquare (XConst CD))))
       (XMul (XConst CTwo) (XMul x (XConst CD))).
Lemma ex_same : disciplined ex_lhs /\ disciplined ex_rhs /\ summands ex_lhs <= 9 /\ summands ex_rhs <= 9 /\ value ex_lhs = value ex_rhs /\
  eval ex_lhs <> eval ex_rhs.
Proof.
  assert (W : wf_bytes ex_b /\ (32 <= length ex_b)%nat) by (split; [apply wf_repeat; unfold is_byte; lia|unfold ex_b; rewrite repeat_length; lia]).
  destruct W as (W & L).
  split; [unfold ex_lhs; cbn [disciplined summands]; repeat split; (assumption || lia)|].
  split; [unfold ex_rhs; cbn [disciplined summands]; repeat split; (assumption || lia)|].
  split; [vm_compute; congruence|]. split; [vm_compute; congruence|]. split.
  - unfold ex_lhs, ex_rhs. cbn [value const_value]. generalize Fd. intros d. generalize (inF (le_val (firstn 32 ex_b) mod 2 ^ 255)). intros x.
    replace (inF 2) with (F1 + F1)%F by (apply F_eq; vm_compute; reflexivity). ring.
  - intros E. assert (X : match eval ex_lhs with Ok f => r1 f | _ => 0 end = match eval ex_rhs with Ok f => r1 f | _ => 0 end) by now rewrite E.
    vm_compute in X. discriminate X.
Qed.
