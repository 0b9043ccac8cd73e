(** The tables of ed25519_const.go hold the multiples of the base point they stand for. *)
From Coq Require Import List ZArith Lia Bool Ring.
From Verif Require Import GoBase FieldModel FieldSpec FieldProofs
  Fp Curve Tables BaseCert BasePoint GroupModel GroupSpec FieldPow GroupProofs.
Import ListNotations.
Open Scope Z_scope.

Definition fevalh (f : fe) : Z :=
  r0 f + 67108864 * (r1 f + 33554432 * (r2 f + 67108864 * (r3 f + 33554432 * (r4 f +
  67108864 * (r5 f + 33554432 * (r6 f + 67108864 * (r7 f + 33554432 * (r8 f + 67108864 * r9 f)))))))).
Lemma fevalh_ok f : fevalh f = feval f.
Proof. unfold fevalh, feval. lia. Qed.

Definition bndb (k : Z) (f : fe) : bool :=
  let o x := 100 * Z.abs x <=? k * 33554432 in
  let e x := 100 * Z.abs x <=? k * 16777216 in
  o (r0 f) && e (r1 f) && o (r2 f) && e (r3 f) && o (r4 f) && e (r5 f) && o (r6 f) && e (r7 f) &&
  o (r8 f) && e (r9 f).
Lemma bndb_ok k f : bndb k f = true -> bnd k f.
Proof.
  unfold bndb, bnd. rewrite !andb_true_iff, !Z.leb_le.
  change (2 ^ 25) with 33554432. change (2 ^ 24) with 16777216. tauto.
Qed.

(** the residue of a ten-limb element with small limbs *)
Definition resid (f : fe) : Z :=
  redp (fevalh f + 231584178474632390847141970017375815706539969331281128078915168015826259279796).
Lemma resid_ok f : bnd 101 f -> resid f = val (rF f).
Proof.
  intros B. rewrite val_rF. unfold resid. rewrite redp_ok.
  - rewrite fevalh_ok. unfold p25519.
    replace 231584178474632390847141970017375815706539969331281128078915168015826259279796
      with (4 * (2 ^ 255 - 19)) by reflexivity.
    apply Z_mod_plus_full.
  - rewrite fevalh_ok. unfold bnd in B. unfold feval.
    destruct B as (B0&B1&B2&B3&B4&B5&B6&B7&B8&B9).
    assert (K : forall x k, 100 * Z.abs x <= k -> - k <= 100 * x <= k) by (intros; lia).
    apply K in B0, B1, B2, B3, B4, B5, B6, B7, B8, B9. clear K. lia.
Qed.

Definition entry_ok (c : Z * Z) (t : fe * fe * fe) : bool :=
  let '(x, y) := c in let '(a, b, z) := t in
  bndb 101 a && bndb 101 b && bndb 101 z &&
  (resid a =? addp y x) && (resid b =? subp y x) &&
  (resid z =? mulp (mulp (addp Fd_z Fd_z) x) y).
Lemma entry_ok_sound P c t : pz P c -> entry_ok c t = true -> repc PRECOMPUTED (of_triple t) P.
Proof.
  destruct c as [x y], t as [[a b] z]. unfold pz, entry_ok. cbn [fst snd]. intros [<- <-] H.
  rewrite !andb_true_iff, !Z.eqb_eq in H. destruct H as [[[[[B1 B2] B3] E1] E2] E3].
  apply bndb_ok in B1, B2, B3. rewrite resid_ok in E1, E2, E3 by assumption.
  rewrite <- Fd_val, !addp_val, ?mulp_val in E3. rewrite addp_val in E1. rewrite subp_val in E2.
  apply F_eq in E1, E2, E3.
  cbn [of_triple]. apply mk_prec; try bd; try assumption. rewrite E3. 
  replace (inF 2) with (1 + 1)%F by (apply F_eq; vm_compute; reflexivity). ring.
Qed.
Fixpoint row_ok (cs : list (Z * Z)) (ts : list (fe * fe * fe)) : bool :=
  match cs, ts with
  | [], [] => true
  | c :: cs', t :: ts' => entry_ok c t && row_ok cs' ts'
  | _, _ => false
  end.
Lemma row_ok_sound : forall cs ts, row_ok cs ts = true ->
  forall j t, nth_error ts j = Some t -> exists c, nth_error cs j = Some c /\ entry_ok c t = true.
Proof.
  induction cs as [|c cs IH]; destruct ts as [|t ts]; cbn [row_ok]; intros H j t' Hj;
    try discriminate H; [destruct j; discriminate Hj|].
  apply andb_prop in H as [H1 H2]. destruct j as [|j]; cbn [nth_error] in *.
  - injection Hj as <-. eauto.
  - eauto.
Qed.
Fixpoint table_ok (rows : list (list (Z * Z))) (tab : list (list (fe * fe * fe))) : bool :=
  match rows, tab with
  | [], [] => true
  | r :: rows', t :: tab' => Nat.eqb (length t) 8 && row_ok r t && table_ok rows' tab'
  | _, _ => false
  end.
Lemma table_ok_sound : forall rows tab, table_ok rows tab = true ->
  forall i t, nth_error tab i = Some t ->
  length t = 8%nat /\ exists r, nth_error rows i = Some r /\ row_ok r t = true.
Proof.
  induction rows as [|r rows IH]; destruct tab as [|t tab]; cbn [table_ok]; intros H i t' Hi;
    try discriminate H; [destruct i; discriminate Hi|].
  apply andb_prop in H as [H H3]. apply andb_prop in H as [H1 H2]. apply Nat.eqb_eq in H1.
  destruct i as [|i]; cbn [nth_error] in *.
  - injection Hi as <-. eauto.
  - eauto.
Qed.
Lemma single_check : table_ok row_pts base_prec_single = true.
Proof. vm_compute. reflexivity. Qed.
Lemma double_check : row_ok odd_pts base_prec_double = true.
Proof. vm_compute. reflexivity. Qed.

Lemma nth_error_map_inv {A B} (f : A -> B) l n y : nth_error (map f l) n = Some y ->
  exists x, nth_error l n = Some x /\ y = f x.
Proof.
  rewrite nth_error_map. destruct (nth_error l n) as [x|]; cbn; [|discriminate].
  intros H. injection H as <-. eauto.
Qed.
Theorem base_single_ok : single_table base_single Bpt.
Proof.
  split; [reflexivity|]. intros i row Hi. apply nth_error_map_inv in Hi as (t & Hi & ->).
  destruct (table_ok_sound _ _ single_check i t Hi) as (L & r & Hr & R).
  split; [now rewrite map_length|]. intros j e Hj. apply nth_error_map_inv in Hj as (u & Hj & ->).
  destruct (row_ok_sound _ _ R j u Hj) as (c & Hc & E).
  apply (entry_ok_sound _ c); [|exact E]. rewrite Z.mul_comm. exact (row_pts_ok i r j c Hr Hc).
Qed.
Theorem base_double_ok : double_table base_double Bpt.
Proof.
  split; [reflexivity|]. intros j e Hj. apply nth_error_map_inv in Hj as (u & Hj & ->).
  destruct (row_ok_sound _ _ double_check j u Hj) as (c & Hc & E).
  apply (entry_ok_sound _ c); [|exact E]. exact (odd_pts_ok j c Hc).
Qed.
