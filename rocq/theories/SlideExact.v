(** scalarMultiply and doubleScalarMultiplyVariableTime for every 32-byte scalar. *)
From Coq Require Import List ZArith Lia Bool Znumtheory.
From Verif Require Import GoBase FieldModel FieldSpec ByteLemmas Fp Curve BasePoint GroupModel GroupSpec GroupProofs TableProofs PointCodec
  GroupEq Tables BaseCert ScalarMul SlideProofs SlideSharp ScalarSpec ApiModel ApiSpec ApiProofs VerifyProofs PropGroupLemmas.
Import ListNotations.
Open Scope Z_scope.

(** ** the loop over b stops after the fourth bit *)
Lemma inner_stop n : forall b x r, bitl r -> (b = 5 \/ b = 6 \/ b = 7)%nat -> (n + b <= 7)%nat -> -15 <= x <= 15 -> x <> 0 ->
  slide_inner n b x r = (x, r).
Proof.
  induction n as [|n IH]; intros b x r Hr Hb Hn Hx N; [reflexivity|]. cbn [slide_inner].
  destruct (nth_error r (b - 1)) as [d|] eqn:Ed; [|reflexivity].
  assert (Hd : bit d) by (eapply Forall_forall; [exact Hr|eapply nth_error_In; exact Ed]).
  destruct Hd; subst d; cbn [Z.eqb].
  - apply IH; try assumption; lia.
  - assert (E : shl8 1 b = 32 \/ shl8 1 b = 64) by (destruct Hb as [-> | [-> | ->]]; [left; reflexivity|right; reflexivity|lia]).
    rewrite !w8_id by lia.
    replace (x + shl8 1 b <=? 15) with false by (symmetry; apply Z.leb_gt; lia).
    replace (-15 <=? x - shl8 1 b) with false by (symmetry; apply Z.leb_gt; lia). reflexivity.
Qed.
Lemma nafd_odd k r : (0 <= k < 16) -> naf_digit (2 * k + 1 + 32 * r) = (if 2 * k + 1 <? 16 then 2 * k + 1 else 2 * k + 1 - 32).
Proof.
  intros K. unfold naf_digit, smod32.
  replace (2 * k + 1 + 32 * r) with (1 + 2 * (k + 16 * r)) by ring. rewrite Z.even_add_mul_2. cbn [Z.even].
  replace (1 + 2 * (k + 16 * r)) with (2 * k + 1 + r * 32) by ring. rewrite Z_mod_plus_full, Z.mod_small by lia. reflexivity.
Qed.
Lemma inner_naf r : bitl r -> exists r',
  slide_inner 6 1 1 r = (naf_digit (1 + 2 * dv 2 r), r') /\ bitl r' /\ length r' = length r /\
  (2 * dv 2 r' = 1 + 2 * dv 2 r - naf_digit (1 + 2 * dv 2 r) \/
   dv 2 r' = 0 /\ 1 + 2 * dv 2 r - naf_digit (1 + 2 * dv 2 r) = 2 * 2 ^ Z.of_nat (length r)).
Proof.
  intros Hr.
  destruct r as [|b1 r]; [eexists; repeat split; [constructor|left; reflexivity]|].
  inversion Hr as [|? ? H1 Hr1]; subst.
  destruct r as [|b2 r]; [destruct H1; subst b1; eexists; (split; [reflexivity|]); (split; [repeat constructor|]); (split; [reflexivity|left; reflexivity])|].
  inversion Hr1 as [|? ? H2 Hr2]; subst.
  destruct r as [|b3 r]; [destruct H1, H2; subst b1 b2; eexists; (split; [reflexivity|]); (split; [repeat constructor|]); (split; [reflexivity|left; reflexivity])|].
  inversion Hr2 as [|? ? H3 Hr3]; subst.
  destruct r as [|b4 t]; [destruct H1, H2, H3; subst b1 b2 b3; eexists; (split; [reflexivity|]); (split; [repeat constructor|]); (split; [reflexivity|left; reflexivity])|].
  inversion Hr3 as [|? ? H4 Ht]; subst.
  assert (B0 : bitl (0 :: 0 :: 0 :: 0 :: t)) by (repeat (constructor; [left; reflexivity|]); exact Ht).
  destruct (carry0_ok t Ht) as (C1 & C2 & C3).
  assert (B1 : bitl (0 :: 0 :: 0 :: 0 :: carry_from t 0)) by (repeat (constructor; [left; reflexivity|]); exact C2).
  set (k := b1 + 2 * b2 + 4 * b3 + 8 * b4).
  assert (K : 0 <= k < 16) by (unfold k; destruct H1, H2, H3, H4; subst; lia).
  assert (E : 1 + 2 * dv 2 (b1 :: b2 :: b3 :: b4 :: t) = 2 * k + 1 + 32 * dv 2 t) by (unfold k; cbn [dv]; ring).
  rewrite E, nafd_odd by exact K.
  destruct H4; subst b4.
  - exists (0 :: 0 :: 0 :: 0 :: t). replace (2 * k + 1 <? 16) with true by (symmetry; apply Z.ltb_lt; unfold k in *; destruct H1, H2, H3; subst; lia).
    split; [|split; [exact B0|split; [reflexivity|left; cbn [dv]; lia]]].
    transitivity (slide_inner 2 5 (2 * k + 1) (0 :: 0 :: 0 :: 0 :: t)).
    + unfold k; destruct H1, H2, H3; subst; reflexivity.
    + apply inner_stop; [exact B0|left; reflexivity|lia| |]; unfold k in *; destruct H1, H2, H3; subst; lia.
  - exists (0 :: 0 :: 0 :: 0 :: carry_from t 0). replace (2 * k + 1 <? 16) with false by (symmetry; apply Z.ltb_ge; unfold k in *; destruct H1, H2, H3; subst; lia).
    split; [|split; [exact B1|split; [cbn [length]; now rewrite C1|]]].
    + transitivity (slide_inner 2 5 (2 * k + 1 - 32) (0 :: 0 :: 0 :: 0 :: carry_from t 0)).
      * unfold k; destruct H1, H2, H3; subst; reflexivity.
      * apply inner_stop; [exact B1|left; reflexivity|lia| |]; unfold k in *; destruct H1, H2, H3; subst; lia.
    + cbn [dv length]. rewrite !pow2S. destruct C3 as [C3|[C3 C4]]; [left|right]; lia.
Qed.
(** ** slide gives the first 256 digits of the width-5 NAF *)
Lemma naf_even s : Z.even s = true -> naf_digit s = 0.
Proof. intros E. unfold naf_digit. now rewrite E. Qed.
Lemma naf_pow n : naf_digits n (2 ^ Z.of_nat n) = naf_digits n 0.
Proof.
  induction n as [|n IH]; [reflexivity|]. cbn [naf_digits]. rewrite pow2S.
  rewrite (naf_even (2 * 2 ^ Z.of_nat n)) by (rewrite Z.even_mul; reflexivity). change (naf_digit 0) with 0.
  rewrite Z.sub_0_r. replace (2 * 2 ^ Z.of_nat n) with (2 ^ Z.of_nat n * 2) by ring. rewrite Z.div_mul by lia.
  change ((0 - 0) / 2) with 0. now rewrite IH.
Qed.
Lemma slide_naf n : forall l, bitl l -> (length l <= n)%nat -> slide_loop n l = naf_digits (length l) (dv 2 l).
Proof.
  induction n as [|n IH]; intros l Hl Hn.
  { destruct l; [reflexivity|cbn in Hn; lia]. }
  destruct l as [|x r]; [reflexivity|]. inversion Hl as [|? ? Hx Hr]; subst. cbn [length] in Hn.
  cbn [slide_loop]. change (dv 2 (x :: r)) with (x + 2 * dv 2 r). cbn [length].
  destruct Hx; subst x; cbn [Z.eqb].
  - cbn [naf_digits]. rewrite (naf_even (0 + 2 * dv 2 r)) by (rewrite Z.even_add_mul_2; reflexivity).
    rewrite Z.sub_0_r, Z.add_0_l. rewrite (Z.mul_comm 2), Z.div_mul by lia. f_equal. apply IH; [exact Hr|lia].
  - destruct (inner_naf r Hr) as (r' & -> & Hr' & Lr & D). cbn [naf_digits].
    rewrite (IH r' Hr') by lia. rewrite Lr. f_equal.
    destruct D as [D|[D0 D]].
    + rewrite <- D. rewrite (Z.mul_comm 2 (dv 2 r')), Z.div_mul by lia. reflexivity.
    + rewrite D0, D. rewrite (Z.mul_comm 2 (2 ^ _)), Z.div_mul by lia. now rewrite naf_pow.
Qed.
Lemma naf_split s : s = naf_digit s + 2 * ((s - naf_digit s) / 2).
Proof.
  assert (E : Z.even (s - naf_digit s) = true).
  { unfold naf_digit. destruct (Z.even s) eqn:E; [now rewrite Z.sub_0_r|].
    assert (M : Z.even (s mod 32) = false).
    { rewrite (Z.div_mod s 32) in E by lia. replace (32 * (s / 32) + s mod 32) with (s mod 32 + 2 * (16 * (s / 32))) in E by ring.
      now rewrite Z.even_add_mul_2 in E. }
    rewrite Z.even_sub, E. unfold smod32. destruct (s mod 32 <? 16); [now rewrite M|]. rewrite Z.even_sub, M. reflexivity. }
  apply Zeven_bool_iff in E. apply Zeven_div2 in E. rewrite Z.div2_div in E. lia.
Qed.
Lemma naf_value n : forall s, dv 2 (naf_digits n s) = s - 2 ^ Z.of_nat n * naf_rest n s.
Proof.
  induction n as [|n IH]; intros s; [cbn [naf_digits naf_rest dv]; change (2 ^ Z.of_nat 0) with 1; lia|].
  cbn [naf_digits naf_rest dv]. rewrite IH, pow2S. pose proof (naf_split s). lia.
Qed.
Theorem slide_exact a : wf_bytes a -> (32 <= length a)%nat ->
  slide a = Ok (naf_digits 256 (le_val (firstn 32 a))).
Proof.
  intros W L. unfold slide. replace (Nat.ltb (length a) 32) with false by (symmetry; apply Nat.ltb_ge; lia).
  destruct (slide_bits a W L) as [B1 B2]. f_equal.
  rewrite (slide_naf 256 _ B1) by (rewrite map_length, seq_length; lia).
  rewrite B2, map_length, seq_length. reflexivity.
Qed.
Lemma sval_naf s : wf_bytes s -> (32 <= length s)%nat -> sval s = double_scalar (le_val (firstn 32 s)).
Proof.
  intros W L. unfold sval. rewrite slide_exact by assumption. rewrite naf_value. reflexivity.
Qed.
(** ** the rest is 0 or 1, and 0 up to 2^255 *)
Lemma le32 s : 0 <= s < 2 ^ 256 -> le_val (le_bytes 32 s) = s.
Proof. intros R. rewrite le_bytes_val. apply Z.mod_small. change (256 ^ Z.of_nat 32) with (2 ^ 256). exact R. Qed.
Lemma double_scalar_any s : 0 <= s < 2 ^ 256 ->
  (double_scalar s = s \/ double_scalar s = s - 2 ^ 256) /\ (s <= 2 ^ 255 -> double_scalar s = s).
Proof.
  intros R. pose proof (le32 s R) as V. pose proof (le_bytes_wf 32 s) as W. pose proof (le_bytes_length 32 s) as L.
  pose proof (sval_any _ W L) as A. pose proof (sval_exact _ W L) as E.
  rewrite sval_naf in A, E by (assumption || lia). rewrite firstn_all2 in A, E by lia. rewrite V in A, E.
  split; [exact A|exact E].
Qed.
(** ** scalarMultiply *)
Lemma dv_range l : (forall i, (i < length l)%nat -> -8 <= nth i l 0 <= 7) ->
  - 8 * (16 ^ Z.of_nat (length l) - 1) <= 15 * dv 16 l <= 7 * (16 ^ Z.of_nat (length l) - 1).
Proof.
  induction l as [|x l IH]; intros H; [cbn; lia|]. cbn [dv length]. rewrite Nat2Z.inj_succ, Z.pow_succ_r by lia.
  pose proof (H 0%nat ltac:(cbn; lia)) as H0. cbn [nth] in H0.
  specialize (IH ltac:(intros i Hi; apply (H (S i)); cbn; lia)). lia.
Qed.
Lemma single_digits a e : wf_bytes a -> (32 <= length a)%nat -> to_radix16 a = Ok e ->
  dv 16 (map sel e) = single_scalar (le_val (firstn 32 a)).
Proof.
  intros W L E. destruct (to_radix16_ok a W L) as (e' & E' & Le & De & D1 & D2 & _).
  rewrite E in E'. assert (e' = e) by congruence. subst e'. clear E E'.
  pose proof (firstn_last 63 e Le) as F. set (t := nth 63 e 0) in *. clearbody t.
  assert (Lf : length (firstn 63 e) = 63%nat) by (apply firstn_length_le; lia).
  assert (N : forall i, (i < 63)%nat -> -8 <= nth i (firstn 63 e) 0 <= 7).
  { intros i Hi. specialize (D1 i Hi). rewrite F in D1. rewrite app_nth1 in D1 by lia. exact D1. }
  set (w := firstn 63 e) in *. clearbody w. subst e. clear D1 Le.
  pose proof (dv_range w) as R. rewrite Lf in R. specialize (R N). change (Z.of_nat 63) with 63 in R.
  assert (Sw : map sel w = w).
  { apply nth_ext with (d := sel 0) (d' := 0); [apply map_length|]. rewrite map_length. intros n Hn. rewrite map_nth. unfold sel.
    replace (nth n w 0 <=? 8) with true; [reflexivity|]. symmetry. apply Z.leb_le. specialize (N n ltac:(lia)). lia. }
  rewrite map_app, Sw, dv_app, Lf. rewrite dv_app, Lf in De. change (Z.of_nat 63) with 63 in *. cbn [map dv] in *.
  unfold single_scalar, top_digit. rewrite <- De. clear De.
  assert (M : 15 * ((16 ^ 63 - 1) / 15) = 16 ^ 63 - 1) by reflexivity.
  set (m := (16 ^ 63 - 1) / 15) in *. clearbody m. set (p := 16 ^ 63) in *.
  assert (P : 0 < p) by reflexivity. clearbody p. set (v := dv 16 w) in *. clearbody v.
  replace ((v + p * (t + 16 * 0) + 8 * m) / p) with t.
  - unfold sel. destruct (t <=? 8); ring.
  - apply Z.div_unique with (v + 8 * m); lia.
Qed.
Lemma scalar_mult_every g rows P a : single g = Some rows -> single_table rows P -> wf_bytes a -> (32 <= length a)%nat ->
  exists r, g_scalarMultiply g a = Ok r /\ repc P3 r (zmul (single_scalar (le_val (firstn 32 a))) P).
Proof.
  intros Hs HT W L. destruct (to_radix16_ok a W L) as (e & E & _).
  rewrite <- (single_digits a e W L E). exact (g_scalarMultiply_gen g rows P a e Hs HT W L E).
Qed.
Lemma scalar_mult_precomputed_every c P a : repc P3 c P -> wf_bytes a -> (32 <= length a)%nat ->
  exists g r, g_precompute_single (new_ge c) = Ok g /\ g_scalarMultiply g a = Ok r /\
    repc P3 r (zmul (single_scalar (le_val (firstn 32 a))) P).
Proof.
  intros H W L. destruct (g_precompute_single_ok c None P H) as (rows & E & T).
  destruct (scalar_mult_every (Ge c (Some rows) None) rows P a eq_refl T W L) as (r & R1 & R2). eauto.
Qed.
Lemma scalar_mult_base_every a : wf_bytes a -> (32 <= length a)%nat ->
  exists g r, get_base_point = Ok g /\ g_scalarMultiply g a = Ok r /\
    repc P3 r (zmul (single_scalar (le_val (firstn 32 a))) Bpt).
Proof.
  intros W L. destruct get_base_point_ok as (c & E & _).
  destruct (scalar_mult_every (Ge c (Some base_single) (Some base_double)) base_single Bpt a eq_refl base_single_ok W L) as (r & R1 & R2). eauto.
Qed.
(** where the two integers differ from the scalar *)
Lemma single_scalar_iff s : 0 <= s < 2 ^ 256 -> (single_scalar s = s <-> s < 9 * 16 ^ 63 - 8 * ((16 ^ 63 - 1) / 15)).
Proof.
  intros R. unfold single_scalar, top_digit. change (2 ^ 256) with (16 * 16 ^ 63) in R.
  set (m := (16 ^ 63 - 1) / 15). assert (M : 15 * m = 16 ^ 63 - 1) by reflexivity. clearbody m.
  set (p := 16 ^ 63) in *. assert (P : 1 < p) by reflexivity. clearbody p.
  pose proof (Z.div_mod (s + 8 * m) p ltac:(lia)) as D. pose proof (Z.mod_pos_bound (s + 8 * m) p ltac:(lia)) as B.
  set (t := (s + 8 * m) / p) in *. clearbody t. set (u := (s + 8 * m) mod p) in *. clearbody u.
  destruct (Z.leb_spec t 8) as [T|T]; split; intros K; try reflexivity; nia.
Qed.
Lemma single_scalar_small s : 0 <= s <= 2 ^ 255 -> single_scalar s = s.
Proof.
  intros R. apply single_scalar_iff; [split; [lia|]; eapply Z.le_lt_trans; [apply R|reflexivity]|].
  eapply Z.le_lt_trans; [apply R|reflexivity].
Qed.
(** ** doubleScalarMultiplyVariableTime *)
Lemma dsm_every B A lB lA PB PA a b : double B = Some lB -> double A = Some lA ->
  double_table lB PB -> double_table lA PA ->
  wf_bytes a -> (32 <= length a)%nat -> wf_bytes b -> (32 <= length b)%nat ->
  exists r, g_doubleScalarMultiply B A a b = Ok r /\
  repc P2 r (psub (zmul (double_scalar (le_val (firstn 32 b))) PB) (zmul (double_scalar (le_val (firstn 32 a))) PA)).
Proof.
  intros EB EA TB TA Wa La Wb Lb.
  destruct (g_dsm_slide B A lB lA PB PA a b _ _ EB EA TB TA Wa La Wb Lb (slide_exact a Wa La) (slide_exact b Wb Lb)) as (r & E & R).
  exists r. split; [exact E|]. rewrite !naf_value in R. exact R.
Qed.
(** scalars that the multiplications do not take for themselves *)
Lemma naf_example : double_scalar (17 * 2 ^ 251) = 17 * 2 ^ 251 - 2 ^ 256 /\ double_scalar (15 * 2 ^ 252) = 15 * 2 ^ 252 /\
  single_scalar (9 * 2 ^ 252) = 0.
Proof. split; [|split]; vm_compute; reflexivity. Qed.
(** ** Verify *)
Lemma verify_every H : hash_ok 64 H -> forall kp m sg,
  wf_bytes (kp_pub kp) -> wf_bytes m -> wf_bytes (sR sg) -> wf_bytes (sS sg) ->
  length (kp_pub kp) = 32%nat \/ length (kp_pub kp) = 64%nat -> (32 <= length (sS sg))%nat ->
  exists b, verify H kp m sg = Ok b /\ (b = true <->
    (low64 (le_val (sS sg)) <> 0 /\ low64 (le_val (sS sg)) <> low64 q25519) /\
    kp_pub kp <> all_zero 32 /\
    exists A, denotes (firstn 32 (kp_pub kp)) A /\
      sR sg = enc_point (psub (zmul (double_scalar (le_val (firstn 32 (sS sg)))) Bpt)
                              (zmul (challenge H (sR sg) (kp_pub kp) m) A))).
Proof.
  intros HH kp m sg Wp Wm WR WS Lp LS. destruct (verify_gen H HH kp m sg Wp Wm WR WS Lp LS) as (b & E & I).
  exists b. split; [exact E|]. rewrite I, canonical_iff by exact WS. unfold accepts. rewrite sval_naf by assumption.
  assert (D : forall A, denotes (firstn 32 (kp_pub kp)) A <-> denotes (kp_pub kp) A).
  { intros A. unfold denotes, y255, sign255. rewrite firstn_firstn. cbn [Nat.min]. reflexivity. }
  split; intros (K1 & K2 & A & K3 & K4); (split; [exact K1|]); (split; [exact K2|]); exists A; (split; [apply D; exact K3|exact K4]).
Qed.
(** the accepted S parts *)
Lemma accepted_every H : hash_ok 64 H -> forall kp m R s s',
  wf_bytes (kp_pub kp) -> wf_bytes m -> wf_bytes R -> wf_bytes s -> wf_bytes s' ->
  length (kp_pub kp) = 32%nat -> length s = 32%nat -> length s' = 32%nat ->
  verify H kp m (Sig R s) = Ok true ->
  (verify H kp m (Sig R s') = Ok true <->
   (q25519 | double_scalar (le_val s) - double_scalar (le_val s')) /\ low64 (le_val s') <> 0 /\ low64 (le_val s') <> low64 q25519).
Proof.
  intros HH kp m R s s' Wp Wm WR Ws Ws' Lp Ls Ls' V.
  destruct (verify_every H HH kp m (Sig R s) Wp Wm WR Ws (or_introl Lp) ltac:(cbn [sS]; lia)) as (b & E & I).
  destruct (verify_every H HH kp m (Sig R s') Wp Wm WR Ws' (or_introl Lp) ltac:(cbn [sS]; lia)) as (b' & E' & I').
  cbn [sR sS] in *. rewrite (firstn_all2 s) in I by lia. rewrite (firstn_all2 s') in I' by lia.
  rewrite V in E. assert (b = true) by congruence. subst b. destruct (proj1 I eq_refl) as (C & N & A & D & K). clear I E.
  rewrite E'. set (v := double_scalar (le_val s)) in *. set (v' := double_scalar (le_val s')) in *. clearbody v v'.
  set (h := challenge H R (kp_pub kp) m) in *. clearbody h.
  assert (X : forall A', denotes (firstn 32 (kp_pub kp)) A' -> A' = A) by (intros A' D'; exact (denotes_unique _ _ _ D' D)).
  split.
  - intros T. assert (b' = true) by congruence. subst b'. destruct (proj1 I' eq_refl) as (C' & _ & A' & D' & K').
    rewrite (X A' D') in K'. split; [|exact C']. rewrite K in K' at 1. apply enc_point_inj in K'.
    assert (Z : zmul v Bpt = zmul v' Bpt).
    { transitivity (padd (psub (zmul v Bpt) (zmul h A)) (zmul h A)); [unfold psub; now rewrite padd_assoc, (padd_comm (pneg _)), padd_neg, padd_0_r|].
      rewrite K'. unfold psub. now rewrite padd_assoc, (padd_comm (pneg _)), padd_neg, padd_0_r. }
    apply zmul_B_inj in Z. apply Z.mod_divide; [discriminate|]. rewrite Zminus_mod, Z, Z.sub_diag. reflexivity.
  - intros (Q & C'). apply f_equal. apply I'. split; [exact C'|]. split; [exact N|]. exists A. split; [exact D|].
    rewrite K at 1. do 2 f_equal. apply zmul_B_inj. destruct Q as [k Q]. replace v with (v' + k * q25519) by lia.
    now rewrite Z.mod_add by discriminate.
Qed.
