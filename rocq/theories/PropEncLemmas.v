(** Lemmas behind C73 (which strings are accepted as points). *)
From Coq Require Import List ZArith Lia Bool Ring Field Znumtheory.
From Verif Require Import GoBase FieldModel FieldSpec ByteLemmas Primality Fp Curve BaseCert BasePoint GroupModel GroupSpec
  PointCodec PropGroupLemmas ApiModel ApiSpec ApiProofs VerifyProofs PropSigLemmas Torsion PropSecLemmas GroupOrder PropOrderLemmas PropRfcLemmas EncSpec.
Import ListNotations.
Open Scope Z_scope.

(** ** y coordinates below 19 *)
Definition cert_x (k : Z) : Z :=
  match k with
  | 0 => 19681161376707505956807079304988542015446066515923890162744021073123829784752
  | 3 => 47490639360184182837601875270316946735278442122217188244898328344323804759522
  | 4 => 31702771484534017269339373971739649995459835985599134064568305595915068745151
  | 5 => 39662079413846548812394406357884595898465868971068617279194812783497449546402
  | 6 => 44179385186637231197387423809866071544592466792969908008717492870455120005190
  | 9 => 20998110467665258077629620998309994886851780706327836337918840104339545710600
  | 10 => 33207867507306152740598547708713744163602291609520176848873678110386858952419
  | 14 => 50846253492489715349487553736853302465683434727029469430224215734562421485833
  | 15 => 55732238393510018740248637141718565550047250075628506353605146378834452627480
  | 16 => 30423490184102983547751937222062317622425652989592655573890622631116622934896
  | 18 => 24955915220342692964971208821014542627211739005308489835959708316178776387624
  | 2 => 42048839561411935031354803217553282777250583745074643799825599643854931745438
  | 7 => 49601478066145613320934037181594374913782906861578312160387599810347950082890
  | 8 => 10807762567072675607203822916201965137694879503313129810348428814915958342384
  | 11 => 16429857358037975642667595208666713001235514642142592697070751920039472074890
  | 12 => 38160720527740056362305938775959471214910550044722722240676258737859550028751
  | 13 => 16218506049871020574514862978296299630351421716643259537482023482715007880568
  | 17 => 38797768345842709262884335695163726453370086857754889955675313727470389807887
  | _ => 0
  end.
(** the equation (k^2 d + 1) x^2 = k^2 - 1 *)
Definition cert_on (k : Z) : bool :=
  let d := Fd_z in let x := cert_x k in (((k * k * d + 1) * (x * x) - (k * k - 1)) mod p25519 =? 0).
(** z^2 = 2 (k^2 - 1) (k^2 d + 1), not 0 *)
Definition cert_off (k : Z) : bool :=
  let d := Fd_z in let z := cert_x k in ((z * z - 2 * (k * k - 1) * (k * k * d + 1)) mod p25519 =? 0) && negb (z mod p25519 =? 0).
Lemma certs_on : forallb cert_on small_ys = true.
Proof. vm_compute. reflexivity. Qed.
Lemma certs_off : forallb cert_off [2; 7; 8; 11; 12; 13; 17] = true.
Proof. vm_compute. reflexivity. Qed.
Lemma two_pow : powp (val (inF 2)) half_p = p25519 - 1.
Proof. vm_compute. reflexivity. Qed.
Lemma two_nonsquare : ~ is_square (inF 2).
Proof.
  intros Hs. pose proof (square_euler _ Hs F2_nz) as E. rewrite <- half_p_eq in E.
  apply (f_equal val) in E. rewrite <- powp_val, two_pow in E. vm_compute in E. discriminate E.
Qed.
Lemma mod0_F a b : ((a - b) mod p25519 =? 0) = true -> inF a = inF b.
Proof.
  intros E. apply Z.eqb_eq in E. apply F_sub_eq. rewrite <- inF_sub. apply F_eq. rewrite !val_inF, E. reflexivity.
Qed.
Lemma on_small k : In k small_ys -> exists x, on_curve x (inF k).
Proof.
  intros I. pose proof (proj1 (forallb_forall cert_on small_ys) certs_on k I) as C. exists (inF (cert_x k)).
  unfold cert_on in C. cbv zeta in C. apply mod0_F in C. apply curve_uv.
  rewrite <- Fd_val, !inF_mul, inF_add, !inF_mul, inF_sub, !inF_mul, inF_val in C. exact C.
Qed.
Lemma off_small k x : In k [2; 7; 8; 11; 12; 13; 17] -> ~ on_curve x (inF k).
Proof.
  intros I C. pose proof (proj1 (forallb_forall cert_off _) certs_off k I) as E.
  unfold cert_off in E. cbv zeta in E. apply andb_true_iff in E as [E N]. apply mod0_F in E.
  apply negb_true_iff, Z.eqb_neq in N. rewrite <- val_inF in N.
  rewrite <- Fd_val, !inF_mul, inF_add, !inF_mul, inF_sub, !inF_mul, inF_val in E. apply curve_uv in C.
  set (z := inF (cert_x k)) in *. set (y := inF k) in *. set (v := (y * y * Fd + 1)%F) in *.
  change (inF 1) with F1 in *. fold v in E.
  assert (Z : z <> F0) by (intros K; apply N; rewrite K; reflexivity). clearbody z.
  set (w := (v * x)%F). assert (W : (inF 2 * (w * w) = z * z)%F).
  { rewrite E. unfold w. transitivity (inF 2 * (v * (x * x)) * v)%F; [ring|]. rewrite C. ring. }
  assert (Nw : w <> F0).
  { intros K. rewrite K in W. apply Z. assert (Q : (z * z = 0)%F) by (rewrite <- W; ring). apply F_integral in Q as [Q|Q]; exact Q. }
  apply two_nonsquare. exists (z / w)%F. transitivity ((z * z) / (w * w))%F; [field; exact Nw|]. rewrite <- W. field. exact Nw.
Qed.
Lemma small_y k : 0 <= k < 19 -> ((exists x, on_curve x (inF k)) <-> In k small_ys).
Proof.
  intros R. split; [|exact (on_small k)]. intros (x & C). unfold small_ys.
  assert (D : In k small_ys \/ In k [2; 7; 8; 11; 12; 13; 17]) by (unfold small_ys; cbn [In]; lia).
  destruct D as [D|D]; [exact D|]. destruct (off_small k x D C).
Qed.

(** ** strings *)
Definition decodes_as raw P := exists g, g_decode raw = Ok g /\ repc P3 g P.
Lemma decodes_denotes raw P : wf_bytes raw -> length raw = 32%nat -> (decodes_as raw P <-> denotes raw P).
Proof.
  intros W L. destruct (g_decode_ok raw W (or_introl L)) as [(Q & g & D & E & R)|[N E]]; split.
  - intros (g' & E' & R'). rewrite E in E'. assert (g = g') by congruence. subst g'.
    destruct R as [_ R], R' as [Cs R']. rewrite (rep_unique g P Q); [exact D| |exact R'|exact R]. intros K. congruence.
  - intros D'. rewrite (denotes_unique _ _ _ D' D). exists g. auto.
  - intros (g' & E' & _). rewrite E in E'. discriminate E'.
  - intros D. destruct (N P D).
Qed.
Lemma denotes_at raw P : wf_bytes raw -> length raw = 32%nat ->
  (denotes raw P <-> py P = inF (le_val raw mod 2 ^ 255) /\ (Fneg (px P) = (2 ^ 255 <=? le_val raw) \/ px P = F0)).
Proof. intros W L. unfold denotes, y255, sign255. rewrite firstn_all2 by lia. reflexivity. Qed.
Lemma m1_F : (- F1)%F = inF (p25519 - 1).
Proof. apply F_eq. vm_compute. reflexivity. Qed.
Lemma split255 v : 0 <= v < 2 ^ 256 -> exists y, 0 <= y < 2 ^ 255 /\ v mod 2 ^ 255 = y /\
  ((v = y /\ (2 ^ 255 <=? v) = false) \/ (v = y + 2 ^ 255 /\ (2 ^ 255 <=? v) = true)).
Proof.
  intros V. destruct (Z.leb_spec (2 ^ 255) v) as [G|G].
  - exists (v - 2 ^ 255). split; [lia|]. split; [|right; split; [lia|reflexivity]].
    replace v with (v - 2 ^ 255 + 1 * 2 ^ 255) at 1 by ring. rewrite Z.mod_add, Z.mod_small by lia. reflexivity.
  - exists v. split; [lia|]. split; [apply Z.mod_small; lia|left; auto].
Qed.
Lemma odd_iff raw : wf_bytes raw -> length raw = 32%nat ->
  ((exists P, denotes raw P /\ raw <> enc_point P) <-> In (le_val raw) odd_encodings).
Proof.
  intros W L. assert (V : 0 <= le_val raw < 2 ^ 256).
  { pose proof (le_val_bound raw W) as B. rewrite L in B. exact B. }
  assert (C : forall P, raw = enc_point P <-> le_val raw = val (py P) + (if Fneg (px P) then 2 ^ 255 else 0)).
  { intros P. rewrite <- enc_point_val. split; [intros ->; reflexivity|]. apply le_val_inj; [exact W|apply enc_point_wf|].
    rewrite L, enc_point_length. reflexivity. }
  destruct (split255 _ V) as (y & Ry & My & Sg).
  assert (B19 : 2 ^ 255 = p25519 + 19) by reflexivity. assert (P1 : 1000 < p25519) by reflexivity.
  split.
  - intros (P & D & N). rewrite (denotes_at raw P W L), My in D. destruct D as [Dy Ds]. rewrite C in N.
    assert (Vy : val (py P) = y mod p25519) by (rewrite Dy; apply val_inF). unfold odd_encodings. rewrite !in_app_iff, !in_map_iff.
    destruct (Z.lt_ge_cases y p25519) as [S|S].
    + rewrite Z.mod_small in Vy by lia. rewrite Vy in N. right. right.
      assert (X : px P = F0).
      { destruct Ds as [Ds|Ds]; [|exact Ds]. exfalso. apply N. rewrite Ds. destruct Sg as [[-> ->]|[-> ->]]; lia. }
      rewrite X, Fneg_0 in N. destruct Sg as [[E _]|[E _]]; [lia|].
      destruct (px0_y _ _ (pon P) X) as [Y|Y]; rewrite Dy in Y; [change F1 with (inF 1) in Y|rewrite m1_F in Y];
        apply mod_cases in Y; try lia; cbn [In]; lia.
    + assert (K : In (y - p25519) small_ys).
      { apply small_y; [lia|]. exists (px P). replace (inF (y - p25519)) with (py P); [apply pon|]. rewrite Dy.
        apply mod_cases; [lia..|]. right. ring. }
      destruct Sg as [[E _]|[E _]]; rewrite E; [left|right; left]; exists (y - p25519); (split; [ring|exact K]).
  - unfold odd_encodings. rewrite !in_app_iff, !in_map_iff. intros I.
    assert (Ex : forall x, on_curve x (y255 raw) -> exists P, denotes raw P) by (intros x; apply denotes_exists).
    assert (Y255 : y255 raw = inF y) by (unfold y255; rewrite firstn_all2, My by lia; reflexivity). rewrite Y255 in Ex.
    assert (Big : p25519 <= y -> In (y - p25519) small_ys -> exists P, denotes raw P /\ raw <> enc_point P).
    { intros G K. apply small_y in K; [|lia]. destruct K as (x & K).
      replace (inF (y - p25519)) with (inF y) in K by (apply mod_cases; [lia..|right; ring]).
      destruct (Ex x K) as (P & D). exists P. split; [exact D|]. rewrite C. pose proof (val_range (py P)) as R.
      destruct Sg as [[E _]|[E _]]; destruct (Fneg (px P)); lia. }
    assert (Zero : forall y', y' = 1 \/ y' = p25519 - 1 -> le_val raw = y' + 2 ^ 255 -> exists P, denotes raw P /\ raw <> enc_point P).
    { intros y' Hy' E. assert (y = y') by lia. subst y'.
      assert (Oc : on_curve F0 (inF y)).
      { destruct Hy' as [-> | ->]; [exact zero_on|rewrite <- m1_F; exact on_m1]. }
      destruct (Ex _ Oc) as (P & D). exists P. split; [exact D|]. rewrite C.
      rewrite (denotes_at raw P W L), My in D. destruct D as [Dy _].
      assert (X : px P = F0).
      { apply (y1_px0 _ _ (pon P)). rewrite Dy. destruct Hy' as [-> | ->]; [left; reflexivity|right; symmetry; exact m1_F]. }
      rewrite X, Fneg_0. pose proof (val_range (py P)). lia. }
    destruct I as [(k & E & K)|[(k & E & K)|[E|[E|[]]]]].
    + assert (0 <= k < 19) by (unfold small_ys in K; cbn [In] in K; lia). apply Big; [lia|]. replace (y - p25519) with k by lia. exact K.
    + assert (0 <= k < 19) by (unfold small_ys in K; cbn [In] in K; lia). apply Big; [lia|]. replace (y - p25519) with k by lia. exact K.
    + apply (Zero 1); [auto|lia].
    + apply (Zero (p25519 - 1)); [auto|lia].
Qed.

Lemma accepted_iff raw : wf_bytes raw -> length raw = 32%nat ->
  ((exists g, g_decode raw = Ok g) <-> (exists P, raw = enc_point P) \/ In (le_val raw) odd_encodings).
Proof.
  intros W L. assert (A : (exists g, g_decode raw = Ok g) <-> exists P, denotes raw P).
  { destruct (g_decode_ok raw W (or_introl L)) as [(Q & g & D & E & R)|[N E]]; split.
    - intros _. exists Q. exact D.
    - intros _. exists g. exact E.
    - intros (g' & E'). rewrite E in E'. discriminate E'.
    - intros (P & D). destruct (N P D). }
  rewrite A, <- (odd_iff raw W L). split.
  - intros (P & D). destruct (list_eq_dec Z.eq_dec raw (enc_point P)) as [E|E]; [left|right]; exists P; auto.
  - intros [(P & ->)|(P & D & _)]; exists P; [apply enc_denotes|exact D].
Qed.
Lemma odd_not_canonical raw P : wf_bytes raw -> length raw = 32%nat -> In (le_val raw) odd_encodings -> raw <> enc_point P.
Proof.
  intros W L I E. apply (odd_iff raw W L) in I as (Q & D & N). apply N.
  rewrite E in D. rewrite E. f_equal. apply (denotes_unique (enc_point P)); [apply enc_denotes|exact D].
Qed.
Lemma odd_range v : In v odd_encodings -> 0 <= v < 256 ^ 32.
Proof.
  assert (B19 : 256 ^ 32 = 2 * p25519 + 38) by reflexivity. assert (P1 : 2 ^ 255 = p25519 + 19) by reflexivity.
  assert (P2 : 1000 < p25519) by reflexivity. unfold odd_encodings, small_ys. cbn [map app In]. lia.
Qed.
Lemma odd_nodup : NoDup odd_encodings /\ length odd_encodings = 26%nat.
Proof.
  split; [|reflexivity].
  assert (E : (if list_eq_dec Z.eq_dec (nodup Z.eq_dec odd_encodings) odd_encodings then true else false) = true) by (vm_compute; reflexivity).
  destruct (list_eq_dec _ _ _) as [D|D]; [|discriminate E]. rewrite <- D. apply NoDup_nodup.
Qed.
Lemma NoDup_app_intro {A} (l1 l2 : list A) : NoDup l1 -> NoDup l2 -> (forall x, In x l1 -> In x l2 -> False) -> NoDup (l1 ++ l2).
Proof.
  intros N1 N2 D. induction N1 as [|x l N N1 IH]; cbn [app]; [exact N2|]. constructor.
  - rewrite in_app_iff. intros [I|I]; [exact (N I)|exact (D x (or_introl eq_refl) I)].
  - apply IH. intros y I. apply D. right. exact I.
Qed.
Theorem number_of_strings : exists l : list bytes, NoDup l /\
  (forall raw, In raw l <-> wf_bytes raw /\ length raw = 32%nat /\ exists g, g_decode raw = Ok g) /\ Z.of_nat (length l) = 8 * q25519 + 26.
Proof.
  destruct number_of_points as (pts & ND & All & Len). destruct odd_nodup as [OD OL].
  exists (map enc_point pts ++ map (le_bytes 32) odd_encodings).
  assert (LV : forall v, In v odd_encodings -> le_val (le_bytes 32 v) = v).
  { intros v I. rewrite le_bytes_val. apply Z.mod_small, odd_range, I. }
  assert (Odd : forall raw, In raw (map (le_bytes 32) odd_encodings) -> wf_bytes raw /\ length raw = 32%nat /\ In (le_val raw) odd_encodings).
  { intros raw I. apply in_map_iff in I as (v & <- & I). split; [apply le_bytes_wf|]. split; [apply le_bytes_length|]. rewrite LV; exact I. }
  split; [|split].
  - apply NoDup_app_intro.
    + apply FinFun.Injective_map_NoDup; [|exact ND]. intros P Q. apply enc_point_inj.
    + revert LV. generalize OD. generalize odd_encodings. clear. intros l ND LV. induction ND as [|v l N ND IH]; cbn [map]; constructor.
      * intros I. apply in_map_iff in I as (w & E & I). apply N. rewrite <- (LV v), <- E, LV; [exact I|right; exact I|left; reflexivity].
      * apply IH. intros w I. apply LV. right. exact I.
    + intros raw I1 I2. apply in_map_iff in I1 as (P & <- & _). apply Odd in I2 as (W & L & I2).
      exact (odd_not_canonical _ P W L I2 eq_refl).
  - intros raw. rewrite in_app_iff. split.
    + intros [I|I].
      * apply in_map_iff in I as (P & <- & _). split; [apply enc_point_wf|]. split; [apply enc_point_length|].
        destruct (g_decode_enc P) as (g & E & _). exists g. exact E.
      * apply Odd in I as (W & L & I). split; [exact W|]. split; [exact L|]. apply accepted_iff; auto.
    + intros (W & L & D). apply accepted_iff in D; [|exact W|exact L]. destruct D as [(P & ->)|I].
      * left. apply in_map, All.
      * right. apply in_map_iff. exists (le_val raw). split; [|exact I].
        apply le_val_inj; [apply le_bytes_wf|exact W|rewrite le_bytes_length; congruence|]. apply LV, I.
  - rewrite app_length, !map_length, OL, Nat2Z.inj_add, Len. reflexivity.
Qed.

(** ** the strings for one point *)
Lemma val_cases P y : 0 <= y < 2 ^ 255 -> (py P = inF y <-> y = val (py P) \/ (val (py P) < 19 /\ y = val (py P) + p25519)).
Proof.
  intros R. pose proof (val_range (py P)) as V. assert (B19 : 2 ^ 255 = p25519 + 19) by reflexivity.
  rewrite <- (inF_val (py P)) at 1. split.
  - intros E. symmetry in E. apply mod_cases in E; lia.
  - intros E. symmetry. apply mod_cases; lia.
Qed.
Lemma or_False_r_eq (A B : Prop) : A \/ B \/ False \/ False <-> A \/ B.
Proof. tauto. Qed.
Theorem strings_of_point P raw : wf_bytes raw -> length raw = 32%nat ->
  (decodes_as raw P <->
   raw = enc_point P \/
   (val (py P) < 19 /\ le_val raw = le_val (enc_point P) + p25519) \/
   (px P = F0 /\ le_val raw = le_val (enc_point P) + 2 ^ 255) \/
   (px P = F0 /\ val (py P) < 19 /\ le_val raw = le_val (enc_point P) + p25519 + 2 ^ 255)).
Proof.
  intros W L. rewrite (decodes_denotes raw P W L), (denotes_at raw P W L).
  assert (V : 0 <= le_val raw < 2 ^ 256).
  { pose proof (le_val_bound raw W) as B. rewrite L in B. exact B. }
  assert (C : raw = enc_point P <-> le_val raw = le_val (enc_point P)).
  { split; [intros ->; reflexivity|]. apply le_val_inj; [exact W|apply enc_point_wf|]. rewrite L, enc_point_length. reflexivity. }
  rewrite C, enc_point_val. destruct (split255 _ V) as (y & Ry & My & Sg). rewrite My, (val_cases P y Ry).
  pose proof (val_range (py P)) as Vp. assert (B19 : 2 ^ 255 = p25519 + 19) by reflexivity.
  destruct (F_eq_dec (px P) F0) as [X|X].
  - rewrite X, Fneg_0. destruct Sg as [[E ->]|[E ->]]; split.
    + intros [[A|[A A']] _]; [left; lia|right; left; split; lia].
    + intros A. split; [|right; reflexivity]. lia.
    + intros [[A|A] _]; [right; right; left|right; right; right]; (split; [reflexivity|lia]).
    + intros A. split; [|right; reflexivity]. lia.
  - assert (Nx : forall Q, px P = F0 /\ Q <-> False) by (intros Q; tauto).
    rewrite !Nx, !or_False_r_eq. clear Nx.
    destruct Sg as [[E ->]|[E ->]], (Fneg (px P)) eqn:Sx; cbv iota; split.
    + intros [_ [B|B]]; [discriminate B|contradiction].
    + intros A. lia.
    + intros [A _]. lia.
    + intros A. split; [lia|left; reflexivity].
    + intros [A _]. lia.
    + intros A. split; [lia|left; reflexivity].
    + intros [_ [B|B]]; [discriminate B|contradiction].
    + intros A. lia.
Qed.
Theorem strings_of_derived H k pub pub' P : hash_ok 64 H -> wf_bytes (pk_raw k) -> derive_public_key H k = Ok pub -> decodes_as pub P ->
  wf_bytes pub' -> length pub' = 32%nat ->
  (decodes_as pub' P <-> pub' = pub \/ (le_val pub mod 2 ^ 255 < 19 /\ le_val pub' = le_val pub + p25519)).
Proof.
  intros HH Wk D DP W L. destruct (derived_key H HH k pub Wk D) as (Wp & Lp & _ & E). apply rfc_decodes_iff in E.
  apply decodes_denotes in DP; [|exact Wp|exact Lp]. set (A := zmul _ Bpt) in E.
  assert (PA : P = A) by (rewrite E in DP; apply (denotes_unique (enc_point A)); [exact DP|apply enc_denotes]).
  assert (X : px P <> F0).
  { destruct (derived_order H HH k pub Wk D) as (A' & DA & O). rewrite (denotes_unique _ _ _ DP DA). intros X.
    apply x0_order2 in X. rewrite <- zmul_2 in X. apply O in X as (c & X). assert (Q : 100 < q25519) by reflexivity. revert X Q. generalize q25519. intros q X Q. destruct (Z.le_gt_cases c 0); nia. }
  assert (Y : le_val pub mod 2 ^ 255 = val (py P)).
  { rewrite E, PA, enc_point_val. pose proof (val_range (py A)). assert (p25519 < 2 ^ 255) by reflexivity.
    destruct (Fneg _).
    - replace (val (py A) + 2 ^ 255) with (val (py A) + 1 * 2 ^ 255) by ring. rewrite Z.mod_add, Z.mod_small by lia. reflexivity.
    - rewrite Z.add_0_r. apply Z.mod_small. lia. }
  rewrite (strings_of_point P pub' W L), Y, PA, <- E. rewrite <- PA. tauto.
Qed.
Lemma ex_odd : exists P raw, wf_bytes raw /\ length raw = 32%nat /\ decodes_as raw P /\ raw <> enc_point P /\ px P <> F0 /\
  le_val raw = le_val (enc_point P) + p25519.
Proof.
  destruct (on_small 3) as (x & C); [unfold small_ys; cbn [In]; lia|]. exists (mkpt _ _ C).
  set (P := mkpt x (inF 3) C). set (raw := le_bytes 32 (le_val (enc_point P) + p25519)). exists raw.
  assert (V : val (py P) = 3) by reflexivity.
  assert (W : wf_bytes raw) by apply le_bytes_wf. assert (L : length raw = 32%nat) by apply le_bytes_length.
  assert (E : le_val raw = le_val (enc_point P) + p25519).
  { unfold raw. rewrite le_bytes_val. apply Z.mod_small. rewrite enc_point_val, V.
    change (256 ^ Z.of_nat 32) with (2 * p25519 + 38). assert (2 ^ 255 = p25519 + 19) by reflexivity. assert (1000 < p25519) by reflexivity.
    destruct (Fneg (px P)); lia. }
  split; [exact W|]. split; [exact L|]. split; [|split; [|split; [|exact E]]].
  - apply strings_of_point; [exact W|exact L|]. right. left. split; [rewrite V; reflexivity|exact E].
  - intros K. rewrite K in E. assert (1000 < p25519) by reflexivity. lia.
  - intros X. destruct (px0_y _ _ (pon P) X) as [Y|Y]; apply (f_equal val) in Y; rewrite V in Y; vm_compute in Y; discriminate Y.
Qed.
Lemma ex_derived_decodes : exists k pub P, wf_bytes (pk_raw k) /\ derive_public_key HX k = Ok pub /\ hash_ok 64 HX /\ decodes_as pub P.
Proof.
  destruct (ex_error) as (k & pub & T & W & D & _). exists k, pub.
  destruct (derived_key HX HX_ok k pub W D) as (Wp & Lp & _ & E). apply rfc_denotes in E.
  eexists. split; [exact W|]. split; [exact D|]. split; [exact HX_ok|]. apply decodes_denotes; [exact Wp|exact Lp|exact E].
Qed.
