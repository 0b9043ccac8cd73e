(** slide and doubleScalarMultiplyVariableTime. *)
From Coq Require Import List ZArith Lia Bool Ring Znumtheory.
From Verif Require Import GoBase FieldModel FieldSpec FieldProofs ByteLemmas EncodeProofs
  Primality Fp Curve GroupModel GroupSpec GroupProofs PointCodec ScalarMul.
Import ListNotations.
Open Scope Z_scope.

Definition bit (d : Z) : Prop := d = 0 \/ d = 1.
Definition bitl (l : list Z) : Prop := Forall bit l.
Definition odd15 (d : Z) : Prop := Z.odd d = true /\ -15 <= d <= 15.
Definition okd (d : Z) : Prop := d = 0 \/ odd15 d.

Lemma pow2S n : 2 ^ Z.of_nat (S n) = 2 * 2 ^ Z.of_nat n.
Proof. rewrite Nat2Z.inj_succ, Z.pow_succ_r by lia. reflexivity. Qed.
Lemma pow2_pos n : 0 < 2 ^ Z.of_nat n.
Proof. apply Z.pow_pos_nonneg; lia. Qed.
Lemma dv2_bound l : bitl l -> 0 <= dv 2 l < 2 ^ Z.of_nat (length l).
Proof.
  induction 1 as [|x l Hx _ IH]; [cbn; lia|]. cbn [dv length]. rewrite pow2S. destruct Hx; subst x; lia.
Qed.

Lemma carry0_ok l : bitl l ->
  length (carry_from l 0) = length l /\ bitl (carry_from l 0) /\
  (dv 2 (carry_from l 0) = dv 2 l + 1 \/
   dv 2 (carry_from l 0) = dv 2 l + 1 - 2 ^ Z.of_nat (length l) /\ dv 2 l + 1 = 2 ^ Z.of_nat (length l)).
Proof.
  induction 1 as [|x l Hx Hl IH].
  - split; [reflexivity|]. split; [constructor|]. right. cbn. lia.
  - cbn [carry_from]. destruct Hx; subst x; cbn [Z.eqb].
    + split; [reflexivity|]. split; [constructor; [right; reflexivity|exact Hl]|]. left. cbn [dv]. lia.
    + destruct IH as (IH1 & IH2 & IH3). cbn [length dv]. rewrite pow2S.
      split; [now rewrite IH1|]. split; [constructor; [left; reflexivity|exact IH2]|].
      destruct IH3 as [IH3|[IH3 IH4]]; [left|right]; lia.
Qed.
Lemma carry_from_ok k : forall l, bitl l -> (k < length l)%nat ->
  length (carry_from l k) = length l /\ bitl (carry_from l k) /\
  (dv 2 (carry_from l k) = dv 2 l + 2 ^ Z.of_nat k \/
   dv 2 (carry_from l k) = dv 2 l + 2 ^ Z.of_nat k - 2 ^ Z.of_nat (length l) /\
   dv 2 l + 2 ^ Z.of_nat k >= 2 ^ Z.of_nat (length l)).
Proof.
  induction k as [|k IH]; intros l Hl Hk.
  - destruct (carry0_ok l Hl) as (A & B & C). split; [exact A|]. split; [exact B|].
    change (2 ^ Z.of_nat 0) with 1. destruct C as [C|[C D]]; [left|right]; lia.
  - destruct l as [|x l]; [cbn in Hk; lia|]. inversion Hl as [|? ? Hx Hl']; subst.
    cbn [length] in Hk. destruct (IH l Hl' ltac:(lia)) as (A & B & C).
    cbn [carry_from length dv]. rewrite !pow2S. split; [now rewrite A|].
    split; [constructor; assumption|].
    destruct C as [C|[C D]]; [left; lia|right]. destruct Hx; subst x; lia.
Qed.
Lemma upd_ok k : forall l, bitl l -> nth_error l k = Some 1 ->
  length (upd l k 0) = length l /\ bitl (upd l k 0) /\ dv 2 (upd l k 0) = dv 2 l - 2 ^ Z.of_nat k.
Proof.
  induction k as [|k IH]; intros [|x l] Hl Hk; try discriminate Hk; inversion Hl as [|? ? Hx Hl']; subst;
    cbn [nth_error] in Hk; cbn [upd length dv].
  - injection Hk as ->. split; [reflexivity|]. split; [constructor; [left; reflexivity|exact Hl']|]. change (2 ^ Z.of_nat 0) with 1. lia.
  - destruct (IH l Hl' Hk) as (A & B & C). rewrite A, C, pow2S. split; [reflexivity|].
    split; [constructor; assumption|lia].
Qed.

(** bits below position k are zero when the value is a multiple of 2^k *)
Lemma mult_next k : forall l, bitl l -> (2 ^ Z.of_nat k | dv 2 l) ->
  match nth_error l k with
  | Some d => (2 ^ Z.of_nat (S k) | dv 2 l - d * 2 ^ Z.of_nat k)
  | None => dv 2 l = 0
  end.
Proof.
  induction k as [|k IH]; intros [|x l] Hl D; cbn [nth_error dv]; try reflexivity.
  - change (2 ^ Z.of_nat 1) with 2. change (2 ^ Z.of_nat 0) with 1. exists (dv 2 l). lia.
  - inversion Hl as [|? ? Hx Hl']; subst. cbn [dv] in D. rewrite !pow2S in *. destruct D as [c D].
    assert (x = 0). { destruct Hx; subst x; [reflexivity|]. exfalso.
      assert (M : (1 + 2 * dv 2 l) mod 2 = (c * (2 * 2 ^ Z.of_nat k)) mod 2) by (rewrite D; reflexivity).
      replace (c * (2 * 2 ^ Z.of_nat k)) with (0 + (c * 2 ^ Z.of_nat k) * 2) in M by ring.
      rewrite Z_mod_plus_full in M. replace (1 + 2 * dv 2 l) with (1 + dv 2 l * 2) in M by ring.
      rewrite Z_mod_plus_full in M. discriminate M. }
    subst x. assert (D' : (2 ^ Z.of_nat k | dv 2 l)) by (exists c; lia).
    specialize (IH l Hl' D'). destruct (nth_error l k) as [d|].
    + destruct IH as [e IH]. exists e. lia.
    + lia.
Qed.

Lemma w8_id z : -128 <= z < 128 -> w8 z = z.
Proof. intros H. unfold w8. rewrite Z.mod_small; lia. Qed.

Definition inner_inv (b : nat) (x : Z) (r : list Z) : Prop :=
  x > - 2 ^ Z.of_nat (b - 1) /\ (2 ^ Z.of_nat (b - 1) | dv 2 r) /\ (b - 1 <= length r)%nat /\
  x + 2 * dv 2 r <= 2 ^ Z.of_nat (length r).
Lemma odd_shift x b : odd15 x -> (1 <= b)%nat ->
  Z.odd (x + 2 ^ Z.of_nat b) = true /\ Z.odd (x - 2 ^ Z.of_nat b) = true.
Proof.
  intros [H _] Hb. destruct b as [|b]; [lia|]. rewrite pow2S.
  replace (x - 2 * 2 ^ Z.of_nat b) with (x + 2 * - 2 ^ Z.of_nat b) by lia.
  now rewrite !Z.odd_add_mul_2.
Qed.
Lemma inner_final b x r : odd15 x -> bitl r -> inner_inv b x r -> 2 * dv 2 r <= 2 ^ Z.of_nat (length r).
Proof.
  intros Hx Hr (A & [c B] & C & D).
  assert (E : exists m, 2 ^ Z.of_nat (length r) = m * 2 ^ Z.of_nat (b - 1)).
  { exists (2 ^ Z.of_nat (length r - (b - 1))). rewrite <- Z.pow_add_r by lia. f_equal. lia. }
  destruct E as [m E]. rewrite E, B in *. pose proof (pow2_pos (b - 1)) as P.
  set (w := 2 ^ Z.of_nat (b - 1)) in *. clearbody w. clear B E C Hr. assert (G : 2 * c < m + 1) by nia. nia.
Qed.
Lemma slide_inner_ok n : forall b x r, bitl r -> (1 <= b)%nat -> (n + b <= 7)%nat -> odd15 x ->
  let '(x', r') := slide_inner n b x r in
  bitl r' /\ length r' = length r /\ odd15 x' /\
  (2 ^ Z.of_nat (S (length r)) | x' + 2 * dv 2 r' - (x + 2 * dv 2 r)) /\
  (inner_inv b x r -> x' + 2 * dv 2 r' = x + 2 * dv 2 r /\ 2 * dv 2 r' <= 2 ^ Z.of_nat (length r)).
Proof.
  induction n as [|n IH]; intros b x r Hr Hb Hn Hx.
  { cbn [slide_inner]. split; [exact Hr|]. split; [reflexivity|]. split; [exact Hx|].
    split; [exists 0; lia|]. intros I. split; [reflexivity|]. eapply inner_final; eassumption. }
  cbn [slide_inner].
  assert (KK : bitl r /\ length r = length r /\ odd15 x /\
     (2 ^ Z.of_nat (S (length r)) | x + 2 * dv 2 r - (x + 2 * dv 2 r)) /\
     (inner_inv b x r -> x + 2 * dv 2 r = x + 2 * dv 2 r /\ 2 * dv 2 r <= 2 ^ Z.of_nat (length r))).
  { split; [exact Hr|]. split; [reflexivity|]. split; [exact Hx|].
    split; [exists 0; lia|]. intros I. split; [reflexivity|]. eapply inner_final; eassumption. }
  destruct (nth_error r (b - 1)) as [d|] eqn:Ed; [|exact KK].
  assert (Lb : (b - 1 < length r)%nat) by (apply nth_error_Some; congruence).
  assert (Hd : bit d) by (eapply Forall_forall; [exact Hr|eapply nth_error_In; exact Ed]).
  assert (Eb : 2 ^ Z.of_nat b = 2 * 2 ^ Z.of_nat (b - 1)) by (rewrite <- pow2S; do 2 f_equal; lia).
  destruct Hd; subst d; cbn [Z.eqb].
  - specialize (IH (b + 1)%nat x r Hr ltac:(lia) ltac:(lia) Hx).
    destruct (slide_inner n (b + 1) x r) as [x' r'].
    destruct IH as (I1 & I2 & I3 & I4 & I5). split; [exact I1|]. split; [exact I2|]. split; [exact I3|].
    split; [exact I4|]. intros (J1 & J2 & J3 & J4). apply I5. unfold inner_inv.
    replace (b + 1 - 1)%nat with b by lia.
    split; [pose proof (pow2_pos (b - 1)); lia|]. split; [|split; [lia|exact J4]].
    pose proof (mult_next _ _ Hr J2) as M. rewrite Ed in M.
    replace (S (b - 1)) with b in M by lia. now rewrite Z.mul_0_l, Z.sub_0_r in M.
  - assert (P64 : 2 ^ Z.of_nat b <= 64).
    { change 64 with (2 ^ Z.of_nat 6). apply Z.pow_le_mono_r; lia. }
    pose proof (pow2_pos (b - 1)) as P0. destruct Hx as [Ho Hx]. pose proof (conj Ho Hx : odd15 x) as Hx'.
    destruct (odd_shift x b Hx' Hb) as [O1 O2].
    unfold shl8. rewrite Z.mul_1_l. rewrite (w8_id (2 ^ Z.of_nat b)) by lia. rewrite !w8_id by lia.
    destruct (Z.leb_spec (x + 2 ^ Z.of_nat b) 15) as [C1|C1];
      [|destruct (Z.leb_spec (-15) (x - 2 ^ Z.of_nat b)) as [C2|C2]; [|exact KK]].
    + destruct (upd_ok _ _ Hr Ed) as (U1 & U2 & U3).
      specialize (IH (b + 1)%nat (x + 2 ^ Z.of_nat b) (upd r (b - 1) 0) U2 ltac:(lia) ltac:(lia)).
      assert (OX : odd15 (x + 2 ^ Z.of_nat b)) by (split; [exact O1|lia]). specialize (IH OX).
      destruct (slide_inner n (b + 1) _ _) as [x' r']. rewrite U1, U3 in IH.
      replace (x + 2 ^ Z.of_nat b + 2 * (dv 2 r - 2 ^ Z.of_nat (b - 1))) with (x + 2 * dv 2 r) in IH by lia.
      destruct IH as (I1 & I2 & I3 & I4 & I5). split; [exact I1|]. split; [exact I2|]. split; [exact I3|].
      split; [exact I4|]. intros (J1 & J2 & J3 & J4). apply I5. unfold inner_inv.
      replace (b + 1 - 1)%nat with b by lia. rewrite U1, U3.
      split; [lia|]. split; [|split; lia].
      pose proof (mult_next _ _ Hr J2) as M. rewrite Ed in M.
      replace (S (b - 1)) with b in M by lia. now rewrite Z.mul_1_l in M.
    + destruct (carry_from_ok _ _ Hr Lb) as (U1 & U2 & U3).
      specialize (IH (b + 1)%nat (x - 2 ^ Z.of_nat b) (carry_from r (b - 1)) U2 ltac:(lia) ltac:(lia)).
      assert (OX : odd15 (x - 2 ^ Z.of_nat b)) by (split; [exact O2|lia]). specialize (IH OX).
      destruct (slide_inner n (b + 1) _ _) as [x' r']. rewrite U1 in IH.
      destruct IH as (I1 & I2 & I3 & I4 & I5). split; [exact I1|]. split; [exact I2|]. split; [exact I3|].
      split.
      * destruct I4 as [c I4]. rewrite pow2S in *. destruct U3 as [U3|[U3 _]]; rewrite U3 in I4.
        -- exists c. lia.
        -- exists (c - 1). lia.
      * intros (J1 & J2 & J3 & J4).
        assert (X0 : 0 < x).
        { destruct (Z.lt_ge_cases 0 x) as [|X0]; [assumption|exfalso]. lia. }
        assert (U3' : dv 2 (carry_from r (b - 1)) = dv 2 r + 2 ^ Z.of_nat (b - 1)).
        { destruct U3 as [U3|[U3 V3]]; [exact U3|exfalso].
          assert (2 ^ Z.of_nat b <= 2 ^ Z.of_nat (length r)) by (apply Z.pow_le_mono_r; lia). lia. }
        rewrite U3' in I5.
        replace (x - 2 ^ Z.of_nat b + 2 * (dv 2 r + 2 ^ Z.of_nat (b - 1))) with (x + 2 * dv 2 r) in I5 by lia.
        apply I5. unfold inner_inv. replace (b + 1 - 1)%nat with b by lia. rewrite U1, U3'.
        split; [lia|]. split; [|split; lia].
        pose proof (mult_next _ _ Hr J2) as M. rewrite Ed in M.
        replace (S (b - 1)) with b in M by lia. destruct M as [c M]. exists (c + 1). lia.
Qed.
Lemma slide_loop_ok n : forall l, bitl l -> (length l <= n)%nat ->
  length (slide_loop n l) = length l /\ Forall okd (slide_loop n l) /\
  (2 ^ Z.of_nat (length l) | dv 2 (slide_loop n l) - dv 2 l) /\
  (2 * dv 2 l <= 2 ^ Z.of_nat (length l) -> dv 2 (slide_loop n l) = dv 2 l).
Proof.
  induction n as [|n IH]; intros l Hl Hn.
  { destruct l; [|cbn in Hn; lia]. repeat split; [constructor|exists 0; reflexivity]. }
  destruct l as [|x r]; [repeat split; [constructor|exists 0; reflexivity]|].
  inversion Hl as [|? ? Hx Hr]; subst. cbn [length] in Hn. cbn [slide_loop].
  destruct Hx; subst x; cbn [Z.eqb].
  - destruct (IH r Hr ltac:(lia)) as (A & B & [c C] & D). cbn [length dv]. rewrite pow2S, A.
    split; [reflexivity|]. split; [constructor; [left; reflexivity|exact B]|].
    split; [exists c; lia|]. intros H. rewrite D by lia. reflexivity.
  - assert (O1 : odd15 1) by (split; [reflexivity|lia]).
    pose proof (slide_inner_ok 6 1 1 r Hr ltac:(lia) ltac:(lia) O1) as I.
    destruct (slide_inner 6 1 1 r) as [x' r']. destruct I as (I1 & I2 & I3 & [e I4] & I5).
    destruct (IH r' I1 ltac:(lia)) as (A & B & [c C] & D). rewrite I2 in *. cbn [length dv]. rewrite pow2S in *.
    split; [now rewrite A|]. split; [constructor; [right; exact I3|exact B]|].
    split; [exists (c + e); lia|]. intros H.
    destruct I5 as [I5 I6].
    { unfold inner_inv. cbn [Nat.sub]. change (2 ^ Z.of_nat 0) with 1. split; [lia|].
      split; [exists (dv 2 r); lia|]. split; lia. }
    rewrite D by lia. exact I5.
Qed.

(** ** the bits *)
Lemma byte_bits x : is_byte x ->
  let bits := map (fun j => Z.land 1 (Z.shiftr (w8 x) (Z.of_nat j))) (seq 0 8) in
  bitl bits /\ dv 2 bits = x.
Proof.
  intros Hx.
  assert (H : (fun x => let bits := map (fun j => Z.land 1 (Z.shiftr (w8 x) (Z.of_nat j))) (seq 0 8) in
     forallb (fun d => (d =? 0) || (d =? 1)) bits && (dv 2 bits =? x)) x = true).
  { revert x Hx. apply all_bytes. vm_compute. reflexivity. }
  cbv zeta beta in *. apply andb_prop in H as [H1 H2]. apply Z.eqb_eq in H2. split; [|exact H2].
  apply Forall_forall. intros d Hd. rewrite forallb_forall in H1. specialize (H1 d Hd).
  apply orb_prop in H1 as [H1|H1]; apply Z.eqb_eq in H1; [left|right]; exact H1.
Qed.
Lemma seq_blocks n : seq 0 (8 * n) = flat_map (fun i => map (fun j => (8 * i + j)%nat) (seq 0 8)) (seq 0 n).
Proof.
  induction n as [|n IH]; [reflexivity|]. replace (8 * S n)%nat with (8 * n + 8)%nat by lia.
  rewrite seq_app, IH, (seq_S n 0). rewrite flat_map_app. f_equal. cbn [flat_map]. rewrite app_nil_r.
  rewrite !Nat.add_0_l. generalize (8 * n)%nat. intros m.
  cbn [seq map]. repeat (apply f_equal2; [lia|]). reflexivity.
Qed.
Lemma map_flat_map {A B C} (f : B -> C) (g : A -> list B) l : map f (flat_map g l) = flat_map (fun x => map f (g x)) l.
Proof. induction l as [|x l IH]; [reflexivity|]. cbn [flat_map]. now rewrite map_app, IH. Qed.
Lemma slide_bits a : wf_bytes a -> (32 <= length a)%nat ->
  bitl (map (slide_bit a) (seq 0 256)) /\ dv 2 (map (slide_bit a) (seq 0 256)) = le_val (firstn 32 a).
Proof.
  intros W L. change 256%nat with (8 * 32)%nat. rewrite seq_blocks, map_flat_map.
  rewrite firstn_byte_at by exact L.
  assert (E : forall n, flat_map (fun i => map (slide_bit a) (map (fun j => (8 * i + j)%nat) (seq 0 8))) (seq 0 n)
    = flat_map (fun x => map (fun j => Z.land 1 (Z.shiftr (w8 x) (Z.of_nat j))) (seq 0 8)) (map (byte_at a) (seq 0 n))).
  { intros n. generalize (seq 0 n). intros is. induction is as [|i is IH]; [reflexivity|].
    cbn [flat_map map]. f_equal; [|exact IH]. rewrite map_map. apply map_ext_in. intros j Hj. apply in_seq in Hj.
    unfold slide_bit. replace ((8 * i + j) / 8)%nat with i by (apply Nat.div_unique with j; lia).
    replace ((8 * i + j) mod 8)%nat with j by (apply Nat.mod_unique with i; lia). reflexivity. }
  rewrite E. clear E. generalize (seq 0 32). intros is.
  induction is as [|i is IH]; [split; [constructor|reflexivity]|].
  destruct IH as [IH1 IH2]. destruct (byte_bits (byte_at a i) (byte_at_byte a i W)) as [B1 B2].
  cbn [flat_map map]. split; [apply Forall_app; split; assumption|].
  rewrite dv_app, IH2, map_length, seq_length. cbn [le_val]. change (2 ^ Z.of_nat 8) with 256.
  cbv zeta in B2. change (fun j : nat => Z.land 1 (Z.shiftr (w8 (byte_at a i)) (Z.of_nat j))) with (fun j : nat => Z.land 1 (Z.shiftr (w8 (byte_at a i)) (Z.of_nat j))) in B2.
  rewrite B2. ring.
Qed.
Theorem slide_ok a : wf_bytes a -> (32 <= length a)%nat ->
  exists l, slide a = Ok l /\ length l = 256%nat /\ Forall okd l /\
  (2 ^ 256 | dv 2 l - le_val (firstn 32 a)) /\
  (le_val (firstn 32 a) <= 2 ^ 255 -> dv 2 l = le_val (firstn 32 a)).
Proof.
  intros W L. unfold slide. replace (Nat.ltb (length a) 32) with false by (symmetry; apply Nat.ltb_ge; lia).
  destruct (slide_bits a W L) as [B1 B2].
  destruct (slide_loop_ok 256 _ B1) as (S1 & S2 & S3 & S4); [rewrite map_length, seq_length; lia|].
  rewrite map_length, seq_length in *. rewrite B2 in *. change (2 ^ Z.of_nat 256) with (2 ^ 256) in *.
  eexists. split; [reflexivity|]. split; [exact S1|]. split; [exact S2|]. split; [exact S3|].
  intros H. apply S4. change (2 ^ 256) with (2 * 2 ^ 255). lia.
Qed.

(** ** doubleScalarMultiplyVariableTime *)
Lemma tab_at_ok l P d : double_table l P -> odd15 d -> 0 < d ->
  exists e, tab_at (Some l) (Z.quot d 2) = Ok e /\ repc PRECOMPUTED e (zmul d P).
Proof.
  intros [L R] [O D] H. unfold tab_at.
  assert (E : exists k, d = 2 * k + 1 /\ Z.quot d 2 = k /\ 0 <= k <= 7).
  { apply Z.odd_spec in O. destruct O as [k O]. exists k. split; [exact O|]. split; [|lia].
    rewrite Z.quot_div_nonneg by lia. rewrite O. symmetry. apply Z.div_unique with 1; lia. }
  destruct E as (k & Ek & -> & Hk). replace (k <? 0) with false by (symmetry; apply Z.ltb_ge; lia).
  destruct (nth_error l (Z.to_nat k)) as [e|] eqn:E; [|apply nth_error_None in E; lia].
  exists e. split; [reflexivity|]. specialize (R _ _ E). now replace (2 * Z.of_nat (Z.to_nat k) + 1) with d in R by lia.
Qed.
Lemma odd15_opp d : odd15 d -> odd15 (- d).
Proof. intros [A B]. split; [rewrite Z.odd_opp; exact A|lia]. Qed.
Lemma okd_cases d : okd d -> d = 0 \/ (0 < d /\ odd15 d) \/ (d < 0 /\ odd15 d).
Proof. intros [H|H]; [left; exact H|right]. destruct H as [A B]. destruct (Z.lt_trichotomy d 0) as [|[->|]]; [right|discriminate A|left]; repeat split; assumption || lia. Qed.
Lemma dsm_step_ok B A lB lA PB PA r Q ai bi : double B = Some lB -> double A = Some lA ->
  double_table lB PB -> double_table lA PA -> repc P2 r Q -> okd ai -> okd bi ->
  exists r', dsm_step B A ai bi r = Ok r' /\
  repc P2 r' (padd (psub (zmul 2 Q) (zmul ai PA)) (zmul bi PB)).
Proof.
  intros EB EA TB TA H Ha Hb. unfold dsm_step. rewrite EB, EA.
  destruct (g_dbl_P2 _ _ H) as (t & -> & Ht). cbn [bind]. rewrite <- zmul_2 in Ht.
  match goal with |- context [bind ?m _] => assert (M : exists t', m = Ok t' /\ repc P1xP1 t' (psub (zmul 2 Q) (zmul ai PA))) end.
  { destruct (okd_cases ai Ha) as [->|[[Sa Oa]|[Sa Oa]]].
    - exists t. split; [reflexivity|]. rewrite zmul_0. unfold psub. now rewrite pneg_0, padd_0_r.
    - replace (0 <? ai) with true by (symmetry; apply Z.ltb_lt; lia).
      destruct (to_P3_P1 _ _ Ht) as (t3 & -> & H3). cbn [bind].
      destruct (tab_at_ok _ _ _ TA Oa Sa) as (e & -> & He). cbn [bind].
      exact (g_precomputedSubtract_ok _ _ _ _ H3 He).
    - replace (0 <? ai) with false by (symmetry; apply Z.ltb_ge; lia).
      replace (ai <? 0) with true by (symmetry; apply Z.ltb_lt; lia).
      destruct (to_P3_P1 _ _ Ht) as (t3 & -> & H3). cbn [bind].
      rewrite w8_id by (destruct Oa; lia).
      destruct (tab_at_ok _ _ (- ai) TA (odd15_opp _ Oa) ltac:(lia)) as (e & -> & He). cbn [bind].
      unfold psub. rewrite <- zmul_opp. exact (g_precomputedAdd_ok _ _ _ _ H3 He). }
  destruct M as (t' & -> & Ht'). cbn [bind].
  match goal with |- context [bind ?m _] => assert (M : exists t'', m = Ok t'' /\ repc P1xP1 t'' (padd (psub (zmul 2 Q) (zmul ai PA)) (zmul bi PB))) end.
  { destruct (okd_cases bi Hb) as [->|[[Sa Oa]|[Sa Oa]]].
    - exists t'. split; [reflexivity|]. rewrite zmul_0. now rewrite padd_0_r.
    - replace (0 <? bi) with true by (symmetry; apply Z.ltb_lt; lia).
      destruct (to_P3_P1 _ _ Ht') as (t3 & -> & H3). cbn [bind].
      destruct (tab_at_ok _ _ _ TB Oa Sa) as (e & -> & He). cbn [bind].
      exact (g_precomputedAdd_ok _ _ _ _ H3 He).
    - replace (0 <? bi) with false by (symmetry; apply Z.ltb_ge; lia).
      replace (bi <? 0) with true by (symmetry; apply Z.ltb_lt; lia).
      destruct (to_P3_P1 _ _ Ht') as (t3 & -> & H3). cbn [bind].
      rewrite w8_id by (destruct Oa; lia).
      destruct (tab_at_ok _ _ (- bi) TB (odd15_opp _ Oa) ltac:(lia)) as (e & -> & He). cbn [bind].
      pose proof (g_precomputedSubtract_ok _ _ _ _ H3 He) as G. unfold psub at 1 in G.
      rewrite <- zmul_opp in G. now rewrite Z.opp_involutive in G. }
  destruct M as (t'' & -> & Ht''). cbn [bind]. exact (to_P2_P1 _ _ Ht'').
Qed.
Definition horner (l : list Z) (acc : Z) : Z := fold_left (fun acc d => 2 * acc + d) l acc.
Lemma horner_rev l : horner (rev l) 0 = dv 2 l.
Proof.
  unfold horner. rewrite <- (rev_involutive l) at 2. rewrite <- fold_left_rev_right, !rev_involutive.
  induction l as [|x l IH]; [reflexivity|]. cbn [fold_right dv]. rewrite IH. ring.
Qed.
Lemma dsm_loop_ok B A lB lA PB PA : double B = Some lB -> double A = Some lA ->
  double_table lB PB -> double_table lA PA -> forall ds flag r alpha beta,
  Forall (fun d => okd (fst d) /\ okd (snd d)) ds -> (flag = false -> alpha = 0 /\ beta = 0) ->
  repc P2 r (psub (zmul beta PB) (zmul alpha PA)) ->
  exists r', dsm_loop B A ds flag r = Ok r' /\
  repc P2 r' (psub (zmul (horner (map snd ds) beta) PB) (zmul (horner (map fst ds) alpha) PA)).
Proof.
  intros EB EA TB TA. induction ds as [|[ai bi] ds IH]; intros flag r alpha beta HD HF H.
  - exists r. split; [reflexivity|exact H].
  - inversion HD as [|? ? [Ha Hb] HD']; subst. cbn [fst snd] in Ha, Hb. cbn [dsm_loop map fst snd].
    change (horner (bi :: map snd ds) beta) with (horner (map snd ds) (2 * beta + bi)).
    change (horner (ai :: map fst ds) alpha) with (horner (map fst ds) (2 * alpha + ai)).
    destruct (flag || negb (ai =? 0) || negb (bi =? 0)) eqn:F.
    + destruct (dsm_step_ok B A lB lA PB PA r _ ai bi EB EA TB TA H Ha Hb) as (r' & -> & H'). cbn [bind].
      apply IH; [exact HD'|discriminate|].
      match goal with H : repc P2 r' ?u |- repc P2 r' ?v => replace v with u; [exact H|] end.
      rewrite !zmul_add. unfold psub. rewrite !pneg_add, !zmul_padd, !zmul_neg, <- !zmul_mul.
      rewrite !padd_assoc. f_equal. rewrite (padd_comm (zmul bi PB)). rewrite !padd_assoc. reflexivity.
    + apply orb_false_iff in F as [F F3]. apply orb_false_iff in F as [F1 F2].
      apply negb_false_iff, Z.eqb_eq in F2, F3. subst ai bi. destruct (HF F1) as [-> ->].
      cbn [bind]. apply IH; [exact HD'|intros _; split; reflexivity|exact H].
Qed.
Lemma combine_fst {A B} (l : list A) (m : list B) : length l = length m -> map fst (combine l m) = l.
Proof. revert m. induction l as [|x l IH]; intros [|y m] H; try discriminate H; [reflexivity|]. cbn in *. f_equal. apply IH. congruence. Qed.
Lemma combine_snd {A B} (l : list A) (m : list B) : length l = length m -> map snd (combine l m) = m.
Proof. revert m. induction l as [|x l IH]; intros [|y m] H; try discriminate H; [reflexivity|]. cbn in *. f_equal. apply IH. congruence. Qed.
Lemma Forall_combine {A B} (P : A -> Prop) (Q : B -> Prop) l m : Forall P l -> Forall Q m ->
  Forall (fun d => P (fst d) /\ Q (snd d)) (combine l m).
Proof. intros H. revert m. induction H as [|x l Hx _ IH]; intros m HM; [constructor|]. destruct HM as [|y m Hy HM]; cbn [combine]; constructor; auto. Qed.
(** for all 32-byte scalars; exact whenever the scalars are at most 2^255 *)
Theorem g_dsm_gen B A lB lA PB PA a b : double B = Some lB -> double A = Some lA ->
  double_table lB PB -> double_table lA PA ->
  wf_bytes a -> (32 <= length a)%nat -> wf_bytes b -> (32 <= length b)%nat ->
  exists r va vb, g_doubleScalarMultiply B A a b = Ok r /\
  (2 ^ 256 | va - le_val (firstn 32 a)) /\ (2 ^ 256 | vb - le_val (firstn 32 b)) /\
  (le_val (firstn 32 a) <= 2 ^ 255 -> va = le_val (firstn 32 a)) /\
  (le_val (firstn 32 b) <= 2 ^ 255 -> vb = le_val (firstn 32 b)) /\
  repc P2 r (psub (zmul vb PB) (zmul va PA)).
Proof.
  intros EB EA TB TA Wa La Wb Lb. unfold g_doubleScalarMultiply.
  destruct (slide_ok a Wa La) as (sa & -> & A1 & A2 & A3 & A4). cbn [bind].
  destruct (slide_ok b Wb Lb) as (sb & -> & B1 & B2 & B3 & B4). cbn [bind].
  destruct (dsm_loop_ok B A lB lA PB PA EB EA TB TA (rev (combine sa sb)) false zero_P2 0 0) as (r & E & R).
  - apply Forall_rev, Forall_combine; assumption.
  - intros _. split; reflexivity.
  - rewrite !zmul_0. unfold psub. rewrite pneg_0, padd_0_r. apply zero_P2_rep.
  - exists r, (dv 2 sa), (dv 2 sb). split; [exact E|]. split; [exact A3|]. split; [exact B3|].
    split; [exact A4|]. split; [exact B4|].
    rewrite !map_rev, combine_fst, combine_snd in R by congruence. now rewrite !horner_rev in R.
Qed.
Theorem g_doubleScalarMultiply_ok B A lB lA PB PA a b : double B = Some lB -> double A = Some lA ->
  double_table lB PB -> double_table lA PA ->
  wf_bytes a -> (32 <= length a)%nat -> le_val (firstn 32 a) <= 2 ^ 255 ->
  wf_bytes b -> (32 <= length b)%nat -> le_val (firstn 32 b) <= 2 ^ 255 ->
  exists r, g_doubleScalarMultiply B A a b = Ok r /\
  repc P2 r (psub (zmul (le_val (firstn 32 b)) PB) (zmul (le_val (firstn 32 a)) PA)).
Proof.
  intros EB EA TB TA Wa La Va Wb Lb Vb.
  destruct (g_dsm_gen B A lB lA PB PA a b EB EA TB TA Wa La Wb Lb) as (r & va & vb & E & _ & _ & Ha & Hb & R).
  exists r. split; [exact E|]. now rewrite (Ha Va), (Hb Vb) in R.
Qed.
