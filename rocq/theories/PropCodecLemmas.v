(** Lemmas behind C37 - C40, C42, C43. *)
From Coq Require Import List ZArith Lia Bool.
From Verif Require Import GoBase FieldModel FieldSpec ByteLemmas Fp Curve BasePoint GroupModel GroupSpec
  PointCodec PropFieldLemmas PropGroupLemmas ScalarModel ApiModel ApiSpec ApiProofs VerifyProofs PropSigLemmas CodecSpec.
Import ListNotations.
Open Scope Z_scope.

(** ** hex *)
Lemma hexval_digit n : 0 <= n < 16 -> hexval (hexdigit n) = Some n.
Proof.
  intros R. unfold hexdigit. destruct (Z.ltb_spec n 10); unfold hexval.
  - replace ((48 <=? 48 + n) && (48 + n <=? 57)) with true by (symmetry; apply andb_true_iff; split; apply Z.leb_le; lia).
    f_equal. lia.
  - replace (48 <=? 87 + n) with true by (symmetry; apply Z.leb_le; lia).
    replace (87 + n <=? 57) with false by (symmetry; apply Z.leb_gt; lia).
    replace ((97 <=? 87 + n) && (87 + n <=? 102)) with true by (symmetry; apply andb_true_iff; split; apply Z.leb_le; lia).
    cbn [andb]. f_equal. lia.
Qed.
Definition up (c : Z) : Z := if (97 <=? c) && (c <=? 122) then c - 32 else c.
Lemma hexval_up c x : hexval c = Some x -> hexval (up c) = Some x.
Proof.
  unfold up. destruct (Z.leb_spec 97 c) as [L1|]; cbn [andb]; [|auto].
  destruct (Z.leb_spec c 122) as [L2|]; cbn [andb]; [|auto]. unfold hexval.
  replace (c <=? 57) with false by (symmetry; apply Z.leb_gt; lia). rewrite andb_false_r.
  replace (c <=? 70) with false by (symmetry; apply Z.leb_gt; lia). rewrite andb_false_r.
  destruct (Z.leb_spec 97 c); [|lia]. destruct (Z.leb_spec c 102); cbn [andb]; intros E; [|discriminate E].
  replace (c - 32 <=? 57) with false by (symmetry; apply Z.leb_gt; lia). rewrite andb_false_r.
  replace (97 <=? c - 32) with false by (symmetry; apply Z.leb_gt; lia). cbn [andb].
  replace (65 <=? c - 32) with true by (symmetry; apply Z.leb_le; lia).
  replace (c - 32 <=? 70) with true by (symmetry; apply Z.leb_le; lia). cbn [andb].
  rewrite <- E. f_equal. lia.
Qed.
Lemma hexval_is_hex c : is_hex c <-> exists x, hexval c = Some x.
Proof.
  unfold is_hex, hexval.
  destruct (Z.leb_spec 48 c), (Z.leb_spec c 57), (Z.leb_spec 97 c), (Z.leb_spec c 102), (Z.leb_spec 65 c), (Z.leb_spec c 70);
    cbn [andb]; split; intros K; try lia; try (eexists; reflexivity); destruct K as [x K]; discriminate K || lia.
Qed.
Definition low (c : Z) : Z := if (65 <=? c) && (c <=? 90) then c + 32 else c.
Lemma hexval_range c x : hexval c = Some x -> 0 <= x < 16 /\ hexdigit x = low c.
Proof.
  unfold hexval, hexdigit, low.
  destruct (Z.leb_spec 48 c), (Z.leb_spec c 57), (Z.leb_spec 97 c), (Z.leb_spec c 102), (Z.leb_spec 65 c), (Z.leb_spec c 70), (Z.leb_spec c 90);
    cbn [andb]; intros K; try lia; try discriminate K; injection K as <-;
    (split; [lia|]); match goal with |- context [?a <? ?b] => destruct (Z.ltb_spec a b) end; lia.
Qed.
Lemma byte_nibbles b : is_byte b -> 0 <= b / 16 < 16 /\ 0 <= b mod 16 < 16.
Proof.
  intros R. unfold is_byte in R. split; [|apply Z.mod_pos_bound; lia].
  split; [apply Z.div_pos; lia|apply Z.div_lt_upper_bound; lia].
Qed.
Lemma digit_lower n : 0 <= n < 16 -> hexdigit n = nth (Z.to_nat n) lower_digits 0.
Proof.
  intros R. assert (C : In n (map Z.of_nat (seq 0 16))).
  { apply in_map_iff. exists (Z.to_nat n). split; [apply Z2Nat.id; lia|]. apply in_seq. lia. }
  cbn in C. repeat (destruct C as [<-|C]; [reflexivity|]). destruct C.
Qed.
Lemma digit_upper n : 0 <= n < 16 -> up (hexdigit n) = nth (Z.to_nat n) upper_digits 0.
Proof.
  intros R. assert (C : In n (map Z.of_nat (seq 0 16))).
  { apply in_map_iff. exists (Z.to_nat n). split; [apply Z2Nat.id; lia|]. apply in_seq. lia. }
  cbn in C. repeat (destruct C as [<-|C]; [reflexivity|]). destruct C.
Qed.
Lemma hex_lower b : wf_bytes b -> hex_encode b = hex_text lower_digits b.
Proof.
  induction b as [|x b IH]; intros W; [reflexivity|]. inversion W; subst.
  destruct (byte_nibbles x ltac:(assumption)) as [N1 N2].
  change (hex_encode (x :: b)) with (hexdigit (x / 16) :: hexdigit (x mod 16) :: hex_encode b). cbn [hex_text].
  rewrite IH by assumption. rewrite !digit_lower by assumption. reflexivity.
Qed.
Lemma hex_upper b : wf_bytes b -> to_upper (hex_encode b) = hex_text upper_digits b.
Proof.
  induction b as [|x b IH]; intros W; [reflexivity|]. inversion W; subst.
  destruct (byte_nibbles x ltac:(assumption)) as [N1 N2].
  change (to_upper (hex_encode (x :: b))) with (up (hexdigit (x / 16)) :: up (hexdigit (x mod 16)) :: to_upper (hex_encode b)). cbn [hex_text].
  rewrite IH by assumption. rewrite !digit_upper by assumption. reflexivity.
Qed.
Lemma key_text raw : wf_bytes raw ->
  private_key_string (new_private_key raw) = hex_text lower_digits raw /\ public_key_hex raw = hex_text lower_digits raw /\ public_key_string raw = hex_text upper_digits raw.
Proof. intros W. split; [exact (hex_lower raw W)|]. split; [exact (hex_lower raw W)|exact (hex_upper raw W)]. Qed.
Lemma signature_text r s : wf_bytes r -> wf_bytes s -> signature_string (Sig r s) = hex_text lower_digits (r ++ s).
Proof. intros A B. unfold signature_string, signature_bytes. cbn [sR sS]. apply hex_lower. apply Forall_app. split; assumption. Qed.
Lemma ex_text : hex_text lower_digits [0; 175; 18] = [48; 48; 97; 102; 49; 50] /\ hex_text upper_digits [175] = [65; 70].
Proof. split; reflexivity. Qed.
Lemma hex_roundtrip b : wf_bytes b -> hex_decode (hex_encode b) = Ok b.
Proof.
  induction b as [|x b IH]; intros W; [reflexivity|]. inversion W; subst.
  destruct (byte_nibbles x ltac:(assumption)) as [N1 N2].
  change (hex_encode (x :: b)) with (hexdigit (x / 16) :: hexdigit (x mod 16) :: hex_encode b). cbn [hex_decode].
  rewrite !hexval_digit by assumption. rewrite IH by assumption. cbn [bind]. do 2 f_equal. symmetry. apply Z.div_mod. discriminate.
Qed.
Lemma hex_roundtrip_up b : wf_bytes b -> hex_decode (to_upper (hex_encode b)) = Ok b.
Proof.
  induction b as [|x b IH]; intros W; [reflexivity|]. inversion W; subst.
  destruct (byte_nibbles x ltac:(assumption)) as [N1 N2].
  change (to_upper (hex_encode (x :: b))) with (up (hexdigit (x / 16)) :: up (hexdigit (x mod 16)) :: to_upper (hex_encode b)). cbn [hex_decode].
  rewrite (hexval_up _ (x / 16)), (hexval_up _ (x mod 16)) by (apply hexval_digit; assumption).
  rewrite IH by assumption. cbn [bind]. do 2 f_equal. symmetry. apply Z.div_mod. discriminate.
Qed.
Lemma hex_encode_length b : length (hex_encode b) = (2 * length b)%nat.
Proof. induction b as [|x b IH]; [reflexivity|]. cbn [length]. change (hex_encode (x :: b)) with (hexdigit (x / 16) :: hexdigit (x mod 16) :: hex_encode b). cbn [length]. rewrite IH. lia. Qed.
(** pairwise induction *)
Lemma list_ind2 {A} (P : list A -> Prop) : P [] -> (forall a, P [a]) -> (forall a b l, P l -> P (a :: b :: l)) -> forall l, P l.
Proof.
  intros H0 H1 H2 l. assert (K : P l /\ forall a, P (a :: l)); [|apply K].
  induction l as [|x l [IH1 IH2]]; [auto|]. split; [apply IH2|]. intros a. apply H2, IH1.
Qed.
Lemma hex_decode_spec s : Nat.even (length s) = true ->
  (Forall is_hex s -> exists raw, hex_decode s = Ok raw /\ wf_bytes raw /\ (2 * length raw = length s)%nat /\ hex_encode raw = to_lower s) /\
  (~ Forall is_hex s -> hex_decode s = Err ErrHex).
Proof.
  induction s as [|a|a b s IH] using list_ind2; intros Ev.
  - split; [intros _; exists []; repeat split; constructor|]. intros K. destruct K. constructor.
  - discriminate Ev.
  - destruct (IH Ev) as [I1 I2]. clear IH. cbn [hex_decode].
    destruct (hexval a) as [x|] eqn:Ea; [destruct (hexval b) as [y|] eqn:Eb|].
    + destruct (hexval_range _ _ Ea) as [Rx Dx]. destruct (hexval_range _ _ Eb) as [Ry Dy].
      assert (Ha : is_hex a) by (apply hexval_is_hex; eauto). assert (Hb : is_hex b) by (apply hexval_is_hex; eauto).
      split.
      * intros F. inversion F as [|? ? _ F']; subst. inversion F' as [|? ? _ F'']; subst.
        destruct (I1 F'') as (raw & -> & W & L & En). cbn [bind]. exists (16 * x + y :: raw). split; [reflexivity|].
        split; [constructor; [unfold is_byte; lia|exact W]|]. split; [cbn [length]; lia|].
        change (hex_encode (16 * x + y :: raw)) with (hexdigit ((16 * x + y) / 16) :: hexdigit ((16 * x + y) mod 16) :: hex_encode raw).
        replace ((16 * x + y) / 16) with x by (apply Z.div_unique with y; lia).
        replace ((16 * x + y) mod 16) with y by (apply Z.mod_unique with x; lia).
        rewrite En, Dx, Dy. reflexivity.
      * intros N. rewrite I2; [reflexivity|]. intros F. apply N. constructor; [exact Ha|]. constructor; assumption.
    + split; [|reflexivity]. intros F. inversion F as [|? ? _ F']; subst. inversion F' as [|? ? Hb _]; subst.
      apply hexval_is_hex in Hb as [y Hy]. congruence.
    + split; [|reflexivity]. intros F. inversion F as [|? ? Ha _]; subst. apply hexval_is_hex in Ha as [y Hy]. congruence.
Qed.
Lemma even_hex_even s : Nat.even (length (even_hex s)) = true.
Proof.
  unfold even_hex. destruct (Nat.odd (length s)) eqn:O.
  - cbn [length]. rewrite Nat.even_succ. exact O.
  - rewrite <- Nat.negb_odd, O. reflexivity.
Qed.
Lemma even_hex_forall s : Forall is_hex s <-> Forall is_hex (even_hex s).
Proof.
  unfold even_hex. destruct (Nat.odd (length s)); [|reflexivity]. split; intros F.
  - constructor; [unfold is_hex; lia|exact F].
  - now inversion F.
Qed.
Lemma hex_decode_odd_even s : hex_decode_odd s = hex_decode (even_hex s).
Proof. unfold hex_decode_odd, even_hex. destruct (Nat.odd (length s)); reflexivity. Qed.

Lemma private_from_hex s :
  (Forall is_hex s -> length (even_hex s) = 64%nat ->
     exists raw, new_private_key_from_hex s = Ok (new_private_key raw) /\ wf_bytes raw /\ length raw = 32%nat /\
       private_key_string (new_private_key raw) = to_lower (even_hex s)) /\
  (Forall is_hex s -> length (even_hex s) <> 64%nat -> new_private_key_from_hex s = Err ErrPrivateKeySize) /\
  (~ Forall is_hex s -> new_private_key_from_hex s = Err ErrHex).
Proof.
  unfold new_private_key_from_hex. rewrite hex_decode_odd_even.
  destruct (hex_decode_spec (even_hex s) (even_hex_even s)) as [I1 I2]. rewrite <- even_hex_forall in I1, I2.
  split; [|split].
  - intros F L. destruct (I1 F) as (raw & -> & W & Lr & En). rewrite bind_ok.
    assert (L32 : length raw = 32%nat) by lia. rewrite L32. exists raw. auto.
  - intros F L. destruct (I1 F) as (raw & -> & W & Lr & En). rewrite bind_ok.
    replace (Nat.eqb (length raw) 32) with false by (symmetry; apply Nat.eqb_neq; lia). reflexivity.
  - intros N. rewrite (I2 N). reflexivity.
Qed.
Lemma public_from_hex s :
  (Forall is_hex s -> length (even_hex s) = 64%nat ->
     exists raw, new_public_key_from_hex s = Ok raw /\ wf_bytes raw /\ length raw = 32%nat /\
       public_key_hex raw = to_lower (even_hex s)) /\
  (Forall is_hex s -> length (even_hex s) <> 64%nat -> new_public_key_from_hex s = Err ErrPublicKeySize) /\
  (~ Forall is_hex s -> new_public_key_from_hex s = Err ErrHex).
Proof.
  unfold new_public_key_from_hex. rewrite hex_decode_odd_even.
  destruct (hex_decode_spec (even_hex s) (even_hex_even s)) as [I1 I2]. rewrite <- even_hex_forall in I1, I2.
  split; [|split].
  - intros F L. destruct (I1 F) as (raw & -> & W & Lr & En). rewrite bind_ok.
    assert (L32 : length raw = 32%nat) by lia. rewrite L32. exists raw. auto.
  - intros F L. destruct (I1 F) as (raw & -> & W & Lr & En). rewrite bind_ok.
    replace (Nat.eqb (length raw) 32) with false by (symmetry; apply Nat.eqb_neq; lia). reflexivity.
  - intros N. rewrite (I2 N). reflexivity.
Qed.
Lemma odd_double (n : nat) : Nat.odd (2 * n) = false.
Proof. rewrite <- Nat.negb_even, Nat.even_mul. reflexivity. Qed.
Lemma private_hex_roundtrip raw : wf_bytes raw -> length raw = 32%nat ->
  new_private_key_from_hex (private_key_string (new_private_key raw)) = Ok (new_private_key raw) /\
  new_private_key_from_hex (to_upper (private_key_string (new_private_key raw))) = Ok (new_private_key raw).
Proof.
  intros W L. unfold new_private_key_from_hex, private_key_string, hex_decode_odd. cbn [pk_raw new_private_key].
  unfold to_upper at 1. rewrite map_length, !hex_encode_length, odd_double.
  rewrite hex_roundtrip, hex_roundtrip_up by exact W. rewrite !bind_ok, L. split; reflexivity.
Qed.
Lemma public_hex_roundtrip raw : wf_bytes raw -> length raw = 32%nat ->
  new_public_key_from_hex (public_key_string raw) = Ok raw /\ new_public_key_from_hex (public_key_hex raw) = Ok raw.
Proof.
  intros W L. unfold new_public_key_from_hex, public_key_string, public_key_hex, hex_decode_odd.
  unfold to_upper at 1. rewrite map_length, !hex_encode_length, odd_double.
  rewrite hex_roundtrip, hex_roundtrip_up by exact W. rewrite !bind_ok, L. split; reflexivity.
Qed.
Lemma ex_hex : Forall is_hex (repeat 65 63) /\ length (even_hex (repeat 65 63)) = 64%nat /\ ~ Forall is_hex [103].
Proof.
  split; [|split; [reflexivity|]].
  - apply Forall_forall. intros x Hx. apply repeat_spec in Hx. subst. unfold is_hex. lia.
  - intros F. inversion F; subst. unfold is_hex in *. lia.
Qed.

(** ** big integers *)
Lemma rev_wf l : wf_bytes l -> wf_bytes (rev l).
Proof. intros W. apply Forall_rev, W. Qed.
Lemma be_val_cons x r : be_val (x :: r) = be_val r + 256 ^ Z.of_nat (length r) * x.
Proof. unfold be_val. cbn [rev]. rewrite le_val_app, rev_length. cbn [le_val]. lia. Qed.
Lemma be_val_bound l : wf_bytes l -> 0 <= be_val l < 256 ^ Z.of_nat (length l).
Proof. intros W. unfold be_val. rewrite <- rev_length. apply le_val_bound, rev_wf, W. Qed.
Lemma be_min_nz x r : wf_bytes (x :: r) -> x <> 0 -> be_min (be_val (x :: r)) = x :: r.
Proof.
  intros W N. inversion W as [|? ? Bx Wr]; subst. pose proof (be_val_bound r Wr) as B. unfold is_byte in Bx.
  pose proof (be_val_cons x r) as V. set (n := length r) in *.
  assert (P : 0 < 256 ^ Z.of_nat n) by (apply Z.pow_pos_nonneg; lia).
  assert (Vlo : 256 ^ Z.of_nat n <= be_val (x :: r)) by nia.
  assert (Vhi : be_val (x :: r) < 256 ^ (Z.of_nat n + 1)) by (rewrite Z.pow_add_r by lia; nia).
  unfold be_min. rewrite Z.abs_eq by lia. destruct (Z.eqb_spec (be_val (x :: r)) 0); [lia|].
  assert (Lg : Z.log2 (be_val (x :: r)) / 8 = Z.of_nat n).
  { assert (Z.log2 (be_val (x :: r)) < 8 * (Z.of_nat n + 1)).
    { apply Z.log2_lt_pow2; [lia|]. rewrite Z.pow_mul_r by lia. exact Vhi. }
    assert (8 * Z.of_nat n <= Z.log2 (be_val (x :: r))).
    { apply Z.log2_le_pow2; [lia|]. rewrite Z.pow_mul_r by lia. exact Vlo. }
    symmetry. apply Z.div_unique with (Z.log2 (be_val (x :: r)) - 8 * Z.of_nat n); lia. }
  rewrite Lg. replace (Z.to_nat (Z.of_nat n + 1)) with (length (rev (x :: r))) by (rewrite rev_length; cbn [length]; fold n; lia).
  unfold be_val. rewrite le_val_inv by (apply rev_wf, W). apply rev_involutive.
Qed.
Lemma be_min_strip l : wf_bytes l -> be_min (be_val l) = strip l.
Proof.
  induction l as [|x r IH]; intros W; [reflexivity|]. destruct (Z.eq_dec x 0) as [->|N].
  - inversion W; subst. cbn [strip]. rewrite <- IH by assumption. f_equal. rewrite be_val_cons. lia.
  - rewrite be_min_nz by assumption. destruct x; [lia|reflexivity|reflexivity].
Qed.
Lemma strip_eq l : strip l = l <-> hd 1 l <> 0.
Proof.
  destruct l as [|x r]; [split; [discriminate|reflexivity]|]. cbn [hd]. destruct x; cbn [strip].
  - split; [|lia]. intros E. exfalso. assert (L : (length (strip r) <= length r)%nat).
    { clear. induction r as [|y r IH]; [apply le_n|]. destruct y; cbn [strip length]; lia. }
    rewrite E in L. cbn [length] in L. lia.
  - split; [discriminate|reflexivity].
  - split; [discriminate|reflexivity].
Qed.
Lemma bigint_exact raw : wf_bytes raw ->
  pk_raw (new_private_key_from_bigint (pk_value (new_private_key raw))) = strip raw.
Proof. intros W. cbn. apply be_min_strip, W. Qed.
Lemma bigint_iff raw : wf_bytes raw ->
  (new_private_key_from_bigint (pk_value (new_private_key raw)) = new_private_key raw <-> hd 1 raw <> 0).
Proof.
  intros W. unfold new_private_key_from_bigint, new_private_key. cbn [pk_value]. rewrite be_min_strip by exact W.
  rewrite <- strip_eq. split; intros E; [congruence|now rewrite E].
Qed.
(** the derived public key may change with the lost zeros: the key bytes are different *)
Lemma ex_bigint : exists raw, length raw = 32%nat /\ wf_bytes raw /\
  length (pk_raw (new_private_key_from_bigint (pk_value (new_private_key raw)))) = 31%nat.
Proof.
  exists (0 :: repeat 5 31). split; [reflexivity|].
  assert (W : wf_bytes (0 :: repeat 5 31)) by (constructor; [unfold is_byte; lia|apply wf_repeat; unfold is_byte; lia]).
  split; [exact W|]. rewrite bigint_exact by exact W. reflexivity.
Qed.

(** ** signatures *)
Lemma new_signature_iff r s sg : new_signature r s = Ok sg <-> length r = 32%nat /\ length s = 32%nat /\ sg = Sig r s.
Proof.
  unfold new_signature. destruct (Nat.eqb_spec (length r) 32), (Nat.eqb_spec (length s) 32); cbn [negb orb];
    (split; [intros E|intros (A & B & ->)]); try discriminate E; try congruence; repeat split; try assumption; congruence.
Qed.
Lemma new_signature_err r s : length r <> 32%nat \/ length s <> 32%nat -> new_signature r s = Err ErrNewSignature.
Proof.
  unfold new_signature. destruct (Nat.eqb_spec (length r) 32), (Nat.eqb_spec (length s) 32); cbn [negb orb]; intros [|]; reflexivity || contradiction.
Qed.
Lemma from_bytes_ok b : length b = 64%nat -> exists sg, new_signature_from_bytes b = Ok sg /\
  signature_bytes sg = b /\ sR sg = firstn 32 b /\ sS sg = skipn 32 b.
Proof.
  intros L. unfold new_signature_from_bytes. rewrite L. cbn [Nat.ltb Nat.leb]. unfold new_signature.
  rewrite firstn_length_le by lia. rewrite skipn_length, L. cbn [Nat.eqb Nat.sub negb orb]. eexists. split; [reflexivity|].
  unfold signature_bytes. cbn [sR sS]. rewrite firstn_skipn. auto.
Qed.
Lemma from_bytes_err b : length b <> 64%nat -> exists e, new_signature_from_bytes b = Err e.
Proof.
  intros L. unfold new_signature_from_bytes. destruct (Nat.ltb_spec (length b) 64) as [K|K]; [eauto|].
  exists ErrNewSignature. apply new_signature_err. right. rewrite skipn_length. lia.
Qed.
Lemma from_bytes_of_bytes r s sg : new_signature r s = Ok sg -> new_signature_from_bytes (signature_bytes sg) = Ok sg.
Proof.
  intros E. apply new_signature_iff in E as (Lr & Ls & ->). unfold signature_bytes. cbn [sR sS].
  unfold new_signature_from_bytes. rewrite app_length, Lr, Ls. cbn [Nat.ltb Nat.leb Nat.add].
  rewrite firstn_app, Lr, Nat.sub_diag, firstn_O, app_nil_r. rewrite firstn_all2 by lia.
  rewrite skipn_app, Lr, Nat.sub_diag. rewrite skipn_all2 by lia. cbn [app skipn]. apply new_signature_iff. auto.
Qed.
Lemma signature_string_ok sg : hex_encode (sR sg) ++ hex_encode (sS sg) = signature_string sg.
Proof. unfold signature_string, signature_bytes, hex_encode. now rewrite flat_map_app. Qed.

(** NewSignatureFromBigInt *)
Lemma from_bigint_ok r s : low64 (Z.abs r) <= 2 ^ 31 - 1 -> low64 (Z.abs s) <= 2 ^ 31 - 1 ->
  exists sg, new_signature_from_bigint (Some r) (Some s) = Ok sg /\
    get_R sg = Z.abs r mod 2 ^ 256 /\ get_S sg = Z.abs s mod 2 ^ 256.
Proof.
  intros Hr Hs. unfold new_signature_from_bigint, max_int32, uint64_of. unfold low64 in Hr, Hs.
  replace (2 ^ 31 - 1 <? Z.abs r mod 2 ^ 64) with false by (symmetry; apply Z.ltb_ge; exact Hr).
  replace (2 ^ 31 - 1 <? Z.abs s mod 2 ^ 64) with false by (symmetry; apply Z.ltb_ge; exact Hs). cbn [orb].
  exists (Sig (utils_BigIntToByteArray r 32) (utils_BigIntToByteArray s 32)).
  split; [apply new_signature_iff; repeat split; apply le_bytes_length|].
  unfold get_R, get_S, utils_BytesToBigInteger, utils_BigIntToByteArray. cbn [sR sS]. rewrite !le_bytes_val. split; reflexivity.
Qed.
Lemma from_bigint_err r s : (r = None \/ s = None \/ (exists v, r = Some v /\ 2 ^ 31 - 1 < low64 (Z.abs v)) \/
    (exists v, s = Some v /\ 2 ^ 31 - 1 < low64 (Z.abs v))) ->
  new_signature_from_bigint r s = Err ErrNewSignatureBigInt.
Proof.
  unfold new_signature_from_bigint, max_int32, uint64_of, low64. intros [->|[->|[(v & -> & L)|(v & -> & L)]]].
  - reflexivity.
  - destruct r; reflexivity.
  - destruct s; [|reflexivity]. apply Z.ltb_lt in L. rewrite L. reflexivity.
  - destruct r as [r|]; [|reflexivity]. apply Z.ltb_lt in L. rewrite L, orb_true_r. reflexivity.
Qed.
Lemma from_bigint_small r s : 0 <= r <= 2 ^ 31 - 1 -> 0 <= s <= 2 ^ 31 - 1 ->
  exists sg, new_signature_from_bigint (Some r) (Some s) = Ok sg /\ get_R sg = r /\ get_S sg = s.
Proof.
  intros Hr Hs. assert (2 ^ 31 - 1 < 2 ^ 64) by reflexivity. assert (2 ^ 31 - 1 < 2 ^ 256) by reflexivity.
  destruct (from_bigint_ok r s) as (sg & E & R & S); [unfold low64; rewrite Z.abs_eq, Z.mod_small; lia..|].
  exists sg. rewrite Z.abs_eq, Z.mod_small in R, S by lia. auto.
Qed.
Lemma from_bigint_altered :
  (exists sg, new_signature_from_bigint (Some (-5)) (Some (2 ^ 256)) = Ok sg /\ get_R sg = 5 /\ get_S sg = 0).
Proof.
  destruct (from_bigint_ok (-5) (2 ^ 256)) as (sg & E & R & S); [discriminate|discriminate|]. exists sg. auto.
Qed.
(** a whole signature survives only if both numbers have small low halves *)
Lemma from_bigint_rebuild sg : wf_bytes (sR sg) -> wf_bytes (sS sg) -> length (sR sg) = 32%nat -> length (sS sg) = 32%nat ->
  new_signature_from_bigint (Some (get_R sg)) (Some (get_S sg)) =
    if (low64 (le_val (sR sg)) <=? 2 ^ 31 - 1) && (low64 (le_val (sS sg)) <=? 2 ^ 31 - 1) then Ok sg else Err ErrNewSignatureBigInt.
Proof.
  intros WR WS LR LS. pose proof (le_val_bound _ WR) as BR. pose proof (le_val_bound _ WS) as BS.
  unfold new_signature_from_bigint, get_R, get_S, utils_BytesToBigInteger, uint64_of, max_int32, low64, utils_BigIntToByteArray.
  rewrite !Z.abs_eq by lia.
  rewrite !(Z.leb_antisym). destruct (Z.ltb_spec (2 ^ 31 - 1) (le_val (sR sg) mod 2 ^ 64)); cbn [negb andb orb]; [reflexivity|].
  destruct (Z.ltb_spec (2 ^ 31 - 1) (le_val (sS sg) mod 2 ^ 64)); cbn [negb andb orb]; [reflexivity|].
  rewrite <- LR at 1. rewrite le_val_inv by exact WR. rewrite <- LS at 1. rewrite le_val_inv by exact WS.
  apply new_signature_iff. destruct sg. auto.
Qed.

(** ** key pairs *)
Section H.
Variable H : list bytes -> bytes.
Hypothesis HH : hash_ok 64 H.
Lemma generate_ok src : wf_bytes src -> (32 <= length src)%nat ->
  exists kp, generate_key_pair H src = Ok (kp, skipn 32 src) /\
    kp_priv kp = Some (new_private_key (firstn 32 src)) /\
    kp_pub kp = public_key_of H (firstn 32 src) /\
    new_key_pair H (kp_priv kp) None = Ok kp.
Proof.
  intros W L. unfold generate_key_pair, read_full.
  replace (Nat.ltb (length src) 32) with false by (symmetry; apply Nat.ltb_ge; lia). rewrite bind_ok. cbn [fst snd].
  set (k := new_private_key (firstn 32 src)). assert (Wk : wf_bytes (pk_raw k)) by (apply wf_firstn, W).
  rewrite (derive_ok H HH) by exact Wk. rewrite bind_ok. unfold new_key_pair at 1, is_key_compressed.
  destruct (public_key_wf H (pk_raw k)) as [_ ->]. cbn [Nat.eqb]. rewrite bind_ok.
  exists (KeyPair (Some k) (public_key_of H (pk_raw k))). split; [reflexivity|]. split; [reflexivity|]. split; [reflexivity|].
  apply (new_key_pair_derived H HH), Wk.
Qed.
Lemma generate_eof src : (length src < 32)%nat -> generate_key_pair H src = Err ErrEOF.
Proof. intros L. unfold generate_key_pair, read_full. apply Nat.ltb_lt in L. now rewrite L. Qed.
Lemma new_key_pair_given priv pub :
  new_key_pair H priv (Some pub) = if Nat.eqb (length pub) 32 then Ok (KeyPair priv pub) else Err ErrNotCompressed.
Proof. unfold new_key_pair, is_key_compressed. now rewrite Nat.eqb_sym. Qed.
Lemma new_key_pair_none : new_key_pair H None None = Panic. Proof. reflexivity. Qed.
(** a pair whose parts do not belong together *)
Lemma mismatch_verify k pub m sg : wf_bytes (pk_raw k) -> wf_bytes pub -> wf_bytes m -> length pub = 32%nat ->
  sign H (KeyPair (Some k) pub) m = Ok sg ->
  exists b, verify H (KeyPair (Some k) pub) m sg = Ok b /\
   (b = true <-> pub <> all_zero 32 /\ exists A, denotes pub A /\
      zmul (challenge H (sR sg) pub m) A = zmul (challenge H (sR sg) pub m) (public_point H (pk_raw k))).
Proof.
  intros Wk Wp Wm Lp. rewrite (sign_ok H HH k pub m Wk Wp Wm). set (S := sig_S H (pk_raw k) pub m).
  destruct ((low64 S =? 0) || (low64 S =? low64 q25519)) eqn:Cn; [discriminate|]. intros E.
  assert (Es : sg = Sig (sig_R H (pk_raw k) m) (le_bytes 32 S)) by congruence. subst sg. clear E.
  apply orb_false_iff in Cn as [C1 C2]. apply Z.eqb_neq in C1, C2.
  assert (V : le_val (le_bytes 32 S) = S) by (unfold S, sig_S; apply q_small).
  assert (RS : 0 <= S < q25519) by (apply Z.mod_pos_bound; reflexivity).
  destruct (verify_exact H HH (KeyPair (Some k) pub) m (Sig (sig_R H (pk_raw k) m) (le_bytes 32 S))) as (b & Eb & I);
    cbn [kp_pub sR sS]; try assumption.
  - apply enc_point_wf.
  - apply le_bytes_wf.
  - apply le_bytes_length.
  - rewrite V. pose proof q_lt. change (2 ^ 255) with (4 * 2 ^ 253). lia.
  - exists b. split; [exact Eb|]. rewrite I. cbn [kp_pub sR sS]. rewrite V. set (h := challenge H (sig_R H (pk_raw k) m) pub m).
    assert (SB : zmul S Bpt = padd (zmul (nonce H (pk_raw k) m) Bpt) (zmul h (public_point H (pk_raw k)))).
    { unfold public_point. rewrite <- zmul_mul, <- zmul_add. apply zmul_B_inj. unfold S, sig_S. fold h.
      now rewrite Z.mod_mod by discriminate. }
    assert (K : forall A, sig_R H (pk_raw k) m = enc_point (psub (zmul S Bpt) (zmul h A)) <->
       zmul h A = zmul h (public_point H (pk_raw k))).
    { intros A. rewrite SB. set (N := zmul (nonce H (pk_raw k) m) Bpt). set (X := zmul h (public_point H (pk_raw k))).
      unfold sig_R. fold N. split.
      - intros Q. apply enc_point_inj in Q. apply (f_equal (fun P => padd P (zmul h A))) in Q. unfold psub in Q.
        rewrite (padd_assoc (padd N X)), (padd_comm (pneg _)), padd_neg, (padd_comm _ pzero), padd_0_l in Q.
        apply (f_equal (fun P => padd (pneg N) P)) in Q. rewrite <- !padd_assoc, (padd_comm (pneg N)), padd_neg, !padd_0_l in Q. exact Q.
      - intros ->. f_equal. unfold psub. fold X. rewrite padd_assoc, padd_neg. symmetry. rewrite padd_comm. apply padd_0_l. }
    split.
    + intros (_ & N & A & DA & Q). split; [exact N|]. exists A. split; [exact DA|]. apply K, Q.
    + intros (N & A & DA & Q). split; [split; assumption|]. split; [exact N|]. exists A. split; [exact DA|]. apply K, Q.
Qed.
End H.
Lemma ex_mismatch : exists k pub, wf_bytes (pk_raw k) /\ length pub = 32%nat /\
  new_key_pair H7 (Some k) (Some pub) = Ok (KeyPair (Some k) pub) /\ pub <> public_key_of H7 (pk_raw k).
Proof.
  exists (new_private_key (le_bytes 32 12345)), neutral_key. split; [apply le_bytes_wf|]. split; [reflexivity|]. split; [reflexivity|].
  intros E. symmetry in E. apply public_key_neutral in E. exact (secret_H7 _ E).
Qed.
Lemma ex_generate : hash_ok 64 H7 /\ wf_bytes (repeat 3 40) /\ (32 <= length (repeat 3 40))%nat.
Proof. split; [exact H7_ok|]. split; [apply wf_repeat; unfold is_byte; lia|]. rewrite repeat_length. lia. Qed.

Lemma ex_strip : wf_bytes (0 :: repeat 7 31) /\ hd 1 (0 :: repeat 7 31) = 0 /\ hd 1 (7 :: repeat 0 31) <> 0 /\
  strip (0 :: repeat 7 31) = repeat 7 31.
Proof. split; [repeat constructor; lia|]. split; [reflexivity|]. split; [discriminate|reflexivity]. Qed.
Lemma ex_bigint_cases : low64 (Z.abs (2 ^ 64 + 5)) <= 2 ^ 31 - 1 /\ 2 ^ 31 - 1 < low64 (Z.abs (2 ^ 31)).
Proof. split; [discriminate|reflexivity]. Qed.
