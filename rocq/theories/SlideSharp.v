(** The exact value of the recoding made by slide, also for scalars above 2^255. *)
From Coq Require Import List ZArith Lia Bool Ring Znumtheory.
From Verif Require Import GoBase FieldModel FieldSpec FieldProofs ByteLemmas EncodeProofs
  Primality Fp Curve GroupModel GroupSpec GroupProofs PointCodec ScalarMul SlideProofs.
Import ListNotations.
Open Scope Z_scope.

Lemma bitl_zero r : bitl r -> dv 2 r = 0 -> forall i d, nth_error r i = Some d -> d = 0.
Proof.
  induction 1 as [|x l Hx Hl IH]; intros E [|i] d Hd; try discriminate Hd; cbn [nth_error dv] in *;
    pose proof (dv2_bound l Hl).
  - injection Hd as <-. destruct Hx; lia.
  - apply (IH ltac:(destruct Hx; lia) i d Hd).
Qed.
Lemma slide_inner_zero n : forall b x r, bitl r -> dv 2 r = 0 -> slide_inner n b x r = (x, r).
Proof.
  induction n as [|n IH]; intros b x r Hr E; [reflexivity|]. cbn [slide_inner].
  destruct (nth_error r (b - 1)) as [d|] eqn:Ed; [|reflexivity].
  rewrite (bitl_zero r Hr E _ _ Ed). cbn [Z.eqb]. apply IH; assumption.
Qed.
Lemma slide_inner_sharp n : forall b x r, bitl r -> (1 <= b)%nat -> (n + b <= 7)%nat -> odd15 x ->
  (2 ^ Z.of_nat (b - 1) | dv 2 r) ->
  let '(x', r') := slide_inner n b x r in
  x' + 2 * dv 2 r' = x + 2 * dv 2 r \/
  (x' + 2 * dv 2 r' = x + 2 * dv 2 r - 2 ^ Z.of_nat (S (length r)) /\ dv 2 r' = 0).
Proof.
  induction n as [|n IH]; intros b x r Hr Hb Hn Hx J; [left; reflexivity|].
  cbn [slide_inner]. destruct (nth_error r (b - 1)) as [d|] eqn:Ed; [|left; reflexivity].
  assert (Lb : (b - 1 < length r)%nat) by (apply nth_error_Some; congruence).
  assert (Hd : bit d) by (eapply Forall_forall; [exact Hr|eapply nth_error_In; exact Ed]).
  assert (Eb : 2 ^ Z.of_nat b = 2 * 2 ^ Z.of_nat (b - 1)) by (rewrite <- pow2S; do 2 f_equal; lia).
  pose proof (mult_next _ _ Hr J) as M. rewrite Ed in M. replace (S (b - 1)) with b in M by lia.
  destruct Hd; subst d; cbn [Z.eqb].
  - specialize (IH (b + 1)%nat x r Hr ltac:(lia) ltac:(lia) Hx).
    destruct (slide_inner n (b + 1) x r) as [x' r']. apply IH.
    replace (b + 1 - 1)%nat with b by lia. now rewrite Z.mul_0_l, Z.sub_0_r in M.
  - assert (P64 : 2 ^ Z.of_nat b <= 64).
    { change 64 with (2 ^ Z.of_nat 6). apply Z.pow_le_mono_r; lia. }
    pose proof (pow2_pos (b - 1)) as P0. pose proof Hx as [Ho Hx'].
    destruct (odd_shift x b Hx Hb) as [O1 O2].
    unfold shl8. rewrite Z.mul_1_l. rewrite (w8_id (2 ^ Z.of_nat b)) by lia. rewrite !w8_id by lia.
    destruct (Z.leb_spec (x + 2 ^ Z.of_nat b) 15) as [C1|C1];
      [|destruct (Z.leb_spec (-15) (x - 2 ^ Z.of_nat b)) as [C2|C2]; [|left; reflexivity]].
    + destruct (upd_ok _ _ Hr Ed) as (U1 & U2 & U3).
      specialize (IH (b + 1)%nat (x + 2 ^ Z.of_nat b) (upd r (b - 1) 0) U2 ltac:(lia) ltac:(lia)).
      assert (OX : odd15 (x + 2 ^ Z.of_nat b)) by (split; [exact O1|lia]). specialize (IH OX).
      destruct (slide_inner n (b + 1) _ _) as [x' r']. rewrite U1, U3 in IH.
      replace (x + 2 ^ Z.of_nat b + 2 * (dv 2 r - 2 ^ Z.of_nat (b - 1))) with (x + 2 * dv 2 r) in IH by lia.
      apply IH. replace (b + 1 - 1)%nat with b by lia. now rewrite Z.mul_1_l in M.
    + destruct (carry_from_ok _ _ Hr Lb) as (U1 & U2 & U3).
      assert (OX : odd15 (x - 2 ^ Z.of_nat b)) by (split; [exact O2|lia]).
      destruct U3 as [U3|[U3 V3]].
      * specialize (IH (b + 1)%nat (x - 2 ^ Z.of_nat b) (carry_from r (b - 1)) U2 ltac:(lia) ltac:(lia) OX).
        destruct (slide_inner n (b + 1) _ _) as [x' r']. rewrite U1, U3 in IH.
        replace (x - 2 ^ Z.of_nat b + 2 * (dv 2 r + 2 ^ Z.of_nat (b - 1))) with (x + 2 * dv 2 r) in IH by lia.
        apply IH. replace (b + 1 - 1)%nat with b by lia. destruct M as [c M]. exists (c + 1). lia.
      * pose proof (dv2_bound _ U2) as B2. pose proof (dv2_bound _ Hr) as B1. rewrite U1 in B2.
        assert (Z0 : dv 2 (carry_from r (b - 1)) = 0).
        { destruct J as [c J].
          assert (E : exists m, 2 ^ Z.of_nat (length r) = m * 2 ^ Z.of_nat (b - 1)).
          { exists (2 ^ Z.of_nat (length r - (b - 1))). rewrite <- Z.pow_add_r by lia. f_equal. lia. }
          destruct E as [m E]. rewrite E, J in *. set (w := 2 ^ Z.of_nat (b - 1)) in *. clearbody w.
          assert (c < m) by nia. assert (c + 1 >= m) by nia. assert (c + 1 = m) by lia. nia. }
        rewrite slide_inner_zero by assumption. right. rewrite pow2S. split; [lia|exact Z0].
Qed.
Lemma slide_loop_zero n : forall l, bitl l -> dv 2 l = 0 -> slide_loop n l = l.
Proof.
  induction n as [|n IH]; intros l Hl E; [reflexivity|]. destruct l as [|x r]; [reflexivity|].
  pose proof (bitl_zero _ Hl E 0 x eq_refl). subst x. inversion Hl as [|? ? Hx Hr]; subst.
  cbn [slide_loop Z.eqb]. f_equal. apply IH; [exact Hr|]. cbn [dv] in E. lia.
Qed.
Lemma slide_loop_sharp n : forall l, bitl l -> (length l <= n)%nat ->
  dv 2 (slide_loop n l) = dv 2 l \/ dv 2 (slide_loop n l) = dv 2 l - 2 ^ Z.of_nat (length l).
Proof.
  induction n as [|n IH]; intros l Hl Hn.
  { destruct l; [left; reflexivity|cbn in Hn; lia]. }
  destruct l as [|x r]; [left; reflexivity|].
  inversion Hl as [|? ? Hx Hr]; subst. cbn [length] in Hn. cbn [slide_loop].
  destruct Hx; subst x; cbn [Z.eqb].
  - cbn [length dv]. rewrite pow2S. destruct (IH r Hr ltac:(lia)) as [E|E]; rewrite E; [left|right]; lia.
  - assert (O1 : odd15 1) by (split; [reflexivity|lia]).
    pose proof (slide_inner_ok 6 1 1 r Hr ltac:(lia) ltac:(lia) O1) as I.
    pose proof (slide_inner_sharp 6 1 1 r Hr ltac:(lia) ltac:(lia) O1 ltac:(exists (dv 2 r); cbn; lia)) as J.
    destruct (slide_inner 6 1 1 r) as [x' r']. destruct I as (I1 & I2 & _). cbn [length dv].
    destruct J as [J|[J Z0]].
    + rewrite pow2S. rewrite <- I2. destruct (IH r' I1 ltac:(lia)) as [E|E]; rewrite E; [left|right]; lia.
    + right. rewrite slide_loop_zero by assumption. exact J.
Qed.
Theorem slide_sharp a l : wf_bytes a -> (32 <= length a)%nat -> slide a = Ok l ->
  dv 2 l = le_val (firstn 32 a) \/ dv 2 l = le_val (firstn 32 a) - 2 ^ 256.
Proof.
  intros W L. unfold slide. replace (Nat.ltb (length a) 32) with false by (symmetry; apply Nat.ltb_ge; lia).
  generalize (slide_loop_sharp 256). generalize (slide_loop 256). intros f S0 E. assert (E1 : l = f (map (slide_bit a) (seq 0 256))) by congruence. subst l. clear E. destruct (slide_bits a W L) as [B1 B2].
  pose proof (S0 _ B1) as S. rewrite map_length, seq_length in S. specialize (S ltac:(lia)).
  rewrite B2 in S. exact S.
Qed.
Theorem g_dsm_slide B A lB lA PB PA a b sa sb : double B = Some lB -> double A = Some lA ->
  double_table lB PB -> double_table lA PA ->
  wf_bytes a -> (32 <= length a)%nat -> wf_bytes b -> (32 <= length b)%nat ->
  slide a = Ok sa -> slide b = Ok sb ->
  exists r, g_doubleScalarMultiply B A a b = Ok r /\
  repc P2 r (psub (zmul (dv 2 sb) PB) (zmul (dv 2 sa) PA)).
Proof.
  intros EB EA TB TA Wa La Wb Lb Ea Eb. unfold g_doubleScalarMultiply.
  destruct (slide_ok a Wa La) as (sa' & Ea' & A1 & A2 & A3 & A4). rewrite Ea in Ea'. assert (sa' = sa) by congruence. subst sa'.
  destruct (slide_ok b Wb Lb) as (sb' & Eb' & B1 & B2 & B3 & B4). rewrite Eb in Eb'. assert (sb' = sb) by congruence. subst sb'.
  rewrite Ea, Eb. cbn [bind].
  destruct (dsm_loop_ok B A lB lA PB PA EB EA TB TA (rev (combine sa sb)) false zero_P2 0 0) as (r & E & R).
  - apply Forall_rev, Forall_combine; assumption.
  - intros _. split; reflexivity.
  - rewrite !zmul_0. unfold psub. rewrite pneg_0, padd_0_r. apply zero_P2_rep.
  - exists r. split; [exact E|].
    rewrite !map_rev, combine_fst, combine_snd in R by congruence. now rewrite !horner_rev in R.
Qed.
