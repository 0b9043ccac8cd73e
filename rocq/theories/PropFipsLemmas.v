(** Lemmas behind [PropFips]: the sponge and the permutation of [HashModel] compute the bits FIPS 202 asks for. *)
From Coq Require Import List ZArith Lia Bool Arith.
From Verif Require Import GoBase ByteLemmas HashModel HashSpec HashProofs PropHashLemmas FipsSpec.
Import ListNotations.
Open Scope nat_scope.

(** ** Bits of bytes and of words *)
Definition wbits (n : nat) (v : Z) : list bool := map (fun i => Z.testbit v (Z.of_nat i)) (seq 0 n).
Lemma wbits_length n v : length (wbits n v) = n.
Proof. unfold wbits. now rewrite map_length, seq_length. Qed.
Lemma wbits_nth n v i : i < n -> nth i (wbits n v) false = Z.testbit v (Z.of_nat i).
Proof.
  intros L. unfold wbits. rewrite (nth_indep _ false (Z.testbit v (Z.of_nat 0))) by (rewrite map_length, seq_length; exact L).
  rewrite (map_nth (fun i => Z.testbit v (Z.of_nat i))), seq_nth by exact L. reflexivity.
Qed.
Lemma wbits_ext n v w : (forall i, i < n -> Z.testbit v (Z.of_nat i) = Z.testbit w (Z.of_nat i)) -> wbits n v = wbits n w.
Proof. intros E. apply map_ext_in. intros i Hi. apply in_seq in Hi. apply E. lia. Qed.
Lemma wbits_split k n v : wbits (k + n) v = wbits k v ++ wbits n (Z.shiftr v (Z.of_nat k)).
Proof.
  unfold wbits. rewrite seq_app, map_app. f_equal. rewrite <- (Nat.add_0_r (0 + k)). 
  replace (0 + k + 0) with (k + 0) by lia. rewrite <- (map_map Z.of_nat (fun i => Z.testbit v i)), <- (map_map Z.of_nat (fun i => Z.testbit (Z.shiftr v (Z.of_nat k)) i)).
  rewrite !map_map. generalize 0 at 1 2. induction n as [|n IH]; intros a; [reflexivity|]. cbn [seq map]. f_equal.
  - rewrite Z.shiftr_spec by lia. f_equal. lia.
  - rewrite <- (IH (S a)). f_equal. f_equal. lia.
Qed.
Lemma bits_of_app a b : bits_of (a ++ b) = bits_of a ++ bits_of b.
Proof. apply flat_map_app. Qed.
Lemma bits_of_cons a b : bits_of (a :: b) = wbits 8 a ++ bits_of b.
Proof. reflexivity. Qed.
Lemma bits_of_length m : length (bits_of m) = 8 * length m.
Proof. induction m as [|b m IH]; [reflexivity|]. rewrite bits_of_cons, app_length, wbits_length, IH. cbn [length]. lia. Qed.
Lemma bits_of_zeros n : bits_of (repeat 0%Z n) = repeat false (8 * n).
Proof.
  induction n as [|n IH]; [reflexivity|]. cbn [repeat]. rewrite bits_of_cons, IH. replace (8 * S n) with (8 + 8 * n) by lia.
  now rewrite repeat_app.
Qed.
Lemma bits_of_firstn n : forall m, bits_of (firstn n m) = firstn (8 * n) (bits_of m).
Proof.
  induction n as [|n IH]; intros [|b m]; try reflexivity.
  cbn [firstn]. rewrite !bits_of_cons, IH. replace (8 * S n) with (length (wbits 8 b) + 8 * n) by (rewrite wbits_length; lia).
  now rewrite firstn_app_2.
Qed.
Lemma bits_of_skipn n : forall m, bits_of (skipn n m) = skipn (8 * n) (bits_of m).
Proof.
  induction n as [|n IH]; intros [|b m]; try reflexivity.
  cbn [skipn]. rewrite bits_of_cons, IH. replace (8 * S n) with (length (wbits 8 b) + 8 * n) by (rewrite wbits_length; lia).
    rewrite skipn_app, wbits_length. replace (8 + 8 * n - 8) with (8 * n) by lia. rewrite (skipn_all2 (wbits 8 b)) by (rewrite wbits_length; lia). reflexivity.
Qed.
(** a byte string is known from its bits *)
Lemma byte_bits a b : is_byte a -> is_byte b -> wbits 8 a = wbits 8 b -> a = b.
Proof.
  intros A B E. apply Z.bits_inj'. intros n Hn. destruct (Z_lt_dec n 8) as [L|L].
  - rewrite <- (Z2Nat.id n) by exact Hn. rewrite <- !(wbits_nth 8) by lia. now rewrite E.
  - unfold is_byte in *. rewrite <- (Z.mod_small a (2 ^ 8)), <- (Z.mod_small b (2 ^ 8)) by lia.
    now rewrite !Z.mod_pow2_bits_high by lia.
Qed.
Lemma bits_of_inj a : forall b, wf_bytes a -> wf_bytes b -> bits_of a = bits_of b -> a = b.
Proof.
  induction a as [|x a IH]; intros [|y b] A B E; try reflexivity; try discriminate E.
  rewrite !bits_of_cons in E. inversion A; inversion B; subst.
  assert (Q : forall (p q r s : list bool), length p = length q -> p ++ r = q ++ s -> p = q /\ r = s).
  { induction p as [|u p IHp]; intros [|v q] r s L K; try discriminate L; [now split|]. cbn in K. injection K as -> K.
    cbn in L. destruct (IHp q r s) as (-> & ->); [lia|assumption|now split]. }
  apply Q in E; [|now rewrite !wbits_length]. destruct E as (E1 & E2). f_equal; [now apply byte_bits|now apply IH].
Qed.
Lemma bits_le_bytes n : forall v, bits_of (le_bytes n v) = wbits (8 * n) v.
Proof.
  induction n as [|n IH]; intros v; [reflexivity|]. cbn [le_bytes]. rewrite bits_of_cons, IH. replace (8 * S n) with (8 + 8 * n) by lia.
  rewrite wbits_split. f_equal.
  - apply wbits_ext. intros i Hi. change 256%Z with (2 ^ 8)%Z. apply Z.mod_pow2_bits_low. lia.
  - rewrite Z.shiftr_div_pow2 by lia. reflexivity.
Qed.
Lemma bits_of_lanes a : bits_of (of_lanes a) = flat_map (wbits 64) a.
Proof.
  induction a as [|v a IH]; [reflexivity|]. unfold of_lanes in *. cbn [flat_map]. rewrite bits_of_app, IH, bits_le_bytes. reflexivity.
Qed.
Lemma to_of_lanes n : forall s, wf_bytes s -> length s = 8 * n -> of_lanes (to_lanes n s) = s.
Proof.
  induction n as [|n IH]; intros s W L; cbn [to_lanes]; [destruct s; [reflexivity|discriminate L]|].
  unfold of_lanes in *. cbn [flat_map]. rewrite IH; [| |rewrite skipn_length; lia].
  - rewrite <- (firstn_skipn 8 s) at 3. f_equal. pose proof (le_val_inv (firstn 8 s)) as K. rewrite firstn_length in K.
    replace (min 8 (length s)) with 8 in K by lia. apply K. rewrite <- (firstn_skipn 8 s) in W. apply Forall_app in W. tauto.
  - rewrite <- (firstn_skipn 8 s) in W. apply Forall_app in W. tauto.
Qed.
Lemma nth_flat k f (l : list Z) : (forall v, length (f v) = k) -> forall i z, z < k ->
  nth (k * i + z) (flat_map f l) false = match nth_error l i with Some v => nth z (f v) false | None => false end.
Proof.
  intros Lf. induction l as [|v l IH]; intros i z Hz.
  - cbn [flat_map]. destruct i; now destruct (_ + z).
  - cbn [flat_map]. destruct i as [|i]; cbn [nth_error].
    + rewrite app_nth1 by (rewrite Lf; lia). f_equal. lia.
    + rewrite app_nth2 by (rewrite Lf; lia). rewrite <- IH by exact Hz. f_equal. rewrite Lf. lia.
Qed.
Lemma lane_error a i : lane a i = match nth_error a i with Some v => v | None => 0%Z end.
Proof. unfold lane. revert i. induction a as [|v a IH]; intros [|i]; try reflexivity. apply IH. Qed.

(** ** The permutation: lanes and state arrays *)
Definition low (a : lanes) : Prop := forall i z, (64 <= z)%Z -> Z.testbit (lane a i) z = false.
Definition agree (a : lanes) (A : state) : Prop :=
  low a /\ length a = 25 /\ forall x y z, x < 5 -> y < 5 -> z < 64 -> A x y z = Z.testbit (lane a (x + 5 * y)) (Z.of_nat z).
Lemma lane_all25 f i : lane (all25 f) i = if i <? 25 then f i else 0%Z.
Proof.
  destruct (Nat.ltb_spec i 25) as [L|L]; unfold lane, all25.
  - rewrite (nth_indep _ 0%Z (f 0)) by (rewrite map_length, seq_length; exact L). rewrite map_nth, seq_nth by exact L. reflexivity.
  - apply nth_overflow. rewrite map_length, seq_length. exact L.
Qed.
Lemma lane_col5 f i : lane (col5 f) i = if i <? 5 then f i else 0%Z.
Proof.
  destruct (Nat.ltb_spec i 5) as [L|L]; unfold lane, col5.
  - rewrite (nth_indep _ 0%Z (f 0)) by (rewrite map_length, seq_length; exact L). rewrite map_nth, seq_nth by exact L. reflexivity.
  - apply nth_overflow. rewrite map_length, seq_length. exact L.
Qed.
Lemma low_all25 f : (forall i z, i < 25 -> (64 <= z)%Z -> Z.testbit (f i) z = false) -> low (all25 f).
Proof. intros H i z Hz. rewrite lane_all25. destruct (Nat.ltb_spec i 25) as [L|L]; [now apply H|apply Z.bits_0]. Qed.
Lemma all25_length f : length (all25 f) = 25. Proof. reflexivity. Qed.
Lemma rotl_high v n z : (0 <= n <= 64)%Z -> (forall z, (64 <= z)%Z -> Z.testbit v z = false) -> (64 <= z)%Z -> Z.testbit (rotl v n) z = false.
Proof.
  intros Hn Hv Hz. unfold rotl, m64. rewrite Z.lor_spec, Z.mod_pow2_bits_high, Z.shiftr_spec by lia. rewrite Hv by lia. reflexivity.
Qed.
Lemma rotl_bit v n z : (0 <= n < 64)%Z -> (forall z, (64 <= z)%Z -> Z.testbit v z = false) -> (0 <= z < 64)%Z ->
  Z.testbit (rotl v n) z = Z.testbit v ((z - n) mod 64).
Proof.
  intros Hn Hv Hz. unfold rotl, m64. rewrite Z.lor_spec, Z.mod_pow2_bits_low, Z.shiftl_spec, Z.shiftr_spec by lia.
  destruct (Z_lt_dec z n) as [L|L].
  - rewrite Z.testbit_neg_r by lia. cbn [orb]. f_equal. apply (Z.mod_unique_pos _ _ (-1)); lia.
  - rewrite (Hv (z + (64 - n))%Z) by lia. rewrite orb_false_r. f_equal. symmetry. apply Z.mod_small. lia.
Qed.

Lemma theta_agree a A : agree a A -> agree (theta a) (Theta A).
Proof.
  intros (H & L & E). unfold theta. cbv zeta. unfold agree.
  set (c := col5 (fun x => Z.lxor (lane a x) (Z.lxor (lane a (x + 5)) (Z.lxor (lane a (x + 10)) (Z.lxor (lane a (x + 15)) (lane a (x + 20))))))).
  set (d := col5 (fun x => Z.lxor (lane c ((x + 4) mod 5)) (rotl (lane c ((x + 1) mod 5)) 1))).
  assert (Hc : forall x z, (64 <= z)%Z -> Z.testbit (lane c x) z = false).
  { intros x z Hz. unfold c. rewrite lane_col5. destruct (x <? 5); [|apply Z.bits_0]. rewrite !Z.lxor_spec. now rewrite !H by exact Hz. }
  assert (Bc : forall x z, x < 5 -> z < 64 -> Z.testbit (lane c x) (Z.of_nat z) =
     xorb (A x 0 z) (xorb (A x 1 z) (xorb (A x 2 z) (xorb (A x 3 z) (A x 4 z))))).
  { intros x z Hx Hz. unfold c. rewrite lane_col5. destruct (Nat.ltb_spec x 5); [|lia]. rewrite !Z.lxor_spec.
    rewrite !E by lia. rewrite Nat.mul_0_r, Nat.add_0_r. reflexivity. }
  clearbody c.
  assert (Hd : forall x z, (64 <= z)%Z -> Z.testbit (lane d x) z = false).
  { intros x z Hz. unfold d. rewrite lane_col5. destruct (x <? 5); [|apply Z.bits_0]. rewrite Z.lxor_spec, Hc by exact Hz.
    rewrite rotl_high; try lia; [reflexivity|]. intros; now apply Hc. }
  assert (Bd : forall x z, x < 5 -> z < 64 -> Z.testbit (lane d x) (Z.of_nat z) =
     xorb (Z.testbit (lane c ((x + 4) mod 5)) (Z.of_nat z)) (Z.testbit (lane c ((x + 1) mod 5)) (Z.of_nat ((z + 63) mod 64)))).
  { intros x z Hx Hz. unfold d. rewrite lane_col5. destruct (Nat.ltb_spec x 5); [|lia]. rewrite Z.lxor_spec. f_equal.
    rewrite rotl_bit; [|lia|intros; now apply Hc|lia]. f_equal. rewrite Nat2Z.inj_mod, Nat2Z.inj_add.
    change (Z.of_nat 63) with 63%Z. change (Z.of_nat 64) with 64%Z.
    replace (Z.of_nat z + 63)%Z with (Z.of_nat z - 1 + 1 * 64)%Z by lia. now rewrite Z.mod_add by lia. }
  clearbody d. split; [|split].
  - apply low_all25. intros i z Hi Hz. rewrite Z.lxor_spec, H, Hd by exact Hz. reflexivity.
  - apply all25_length.
  - intros x y z Hx Hy Hz. rewrite lane_all25. destruct (Nat.ltb_spec (x + 5 * y) 25); [|lia].
    rewrite Z.lxor_spec. replace ((x + 5 * y) mod 5) with x by (rewrite Nat.add_comm, Nat.mul_comm, Nat.add_comm, Nat.mod_add by lia; symmetry; now apply Nat.mod_small).
    rewrite Bd, !Bc by (try apply Nat.mod_upper_bound; lia). unfold Theta. cbv zeta. now rewrite E.
Qed.
Fixpoint hit (n t x y x1 y1 : nat) : option Z :=
  match n with
  | O => None
  | S n' => match hit n' (t + 1) y ((2 * x + 3 * y) mod 5) x1 y1 with
            | Some o => Some o
            | None => if (x1 =? x) && (y1 =? y) then Some (Z.of_nat ((t + 1) * (t + 2) / 2)) else None
            end
  end.
Lemma Rho_hit n : forall t x y A A' x1 y1 z, Rho_loop n t x y A A' x1 y1 z =
  match hit n t x y x1 y1 with Some o => A x1 y1 (Z.to_nat ((Z.of_nat z - o) mod 64)) | None => A' x1 y1 z end.
Proof.
  induction n as [|n IH]; intros t x y A A' x1 y1 z; [reflexivity|]. cbn [Rho_loop hit]. cbv zeta. rewrite IH.
  destruct (hit n (t + 1) y ((2 * x + 3 * y) mod 5) x1 y1); [reflexivity|].
  destruct (Nat.eqb_spec x1 x) as [->|]; [|reflexivity]. destruct (Nat.eqb_spec y1 y) as [->|]; reflexivity.
Qed.
Lemma hits : forallb (fun y => forallb (fun x => match hit 24 0 1 0 x y with
  | Some o => (o mod 64 =? nth (x + 5 * y) rho_offsets 0)%Z && negb ((x =? 0) && (y =? 0))
  | None => (x =? 0) && (y =? 0) end) (seq 0 5)) (seq 0 5) = true.
Proof. vm_compute. reflexivity. Qed.
Lemma Rho_offsets A x y z : x < 5 -> y < 5 ->
  Rho A x y z = A x y (if (x =? 0) && (y =? 0) then z else Z.to_nat ((Z.of_nat z - nth (x + 5 * y) rho_offsets 0%Z) mod 64)).
Proof.
  intros Hx Hy. unfold Rho. rewrite Rho_hit. pose proof hits as T. rewrite forallb_forall in T. specialize (T y ltac:(apply in_seq; lia)).
  cbv beta in T. rewrite forallb_forall in T. specialize (T x ltac:(apply in_seq; lia)). cbv beta in T.
  destruct (hit 24 0 1 0 x y) as [o|]; [|now rewrite T]. apply andb_true_iff in T. destruct T as (T1 & T2). apply negb_true_iff in T2. rewrite T2.
  apply Z.eqb_eq in T1. rewrite <- T1. rewrite Zminus_mod_idemp_r. reflexivity.
Qed.
Lemma rho_pi_agree a A : agree a A -> agree (rho_pi a) (Pi (Rho A)).
Proof.
  intros (H & L & E). unfold rho_pi. cbv zeta.
  assert (O : forall i, (0 <= nth i rho_offsets 0 < 64)%Z).
  { intros i. do 25 (destruct i as [|i]; [cbv; split; [discriminate|reflexivity]|]). rewrite nth_overflow by (cbn; lia). lia. }
  split; [|split].
  - apply low_all25. intros i z Hi Hz. apply rotl_high; [specialize (O ((i mod 5 + 3 * (i / 5)) mod 5 + 5 * (i mod 5))); lia| |exact Hz]. intros; now apply H.
  - apply all25_length.
  - intros x y z Hx Hy Hz. rewrite lane_all25. destruct (Nat.ltb_spec (x + 5 * y) 25); [|lia].
    replace ((x + 5 * y) mod 5) with x by (rewrite Nat.add_comm, Nat.mul_comm, Nat.add_comm, Nat.mod_add by lia; symmetry; now apply Nat.mod_small).
    replace ((x + 5 * y) / 5) with y by (rewrite Nat.mul_comm, Nat.div_add, Nat.div_small by lia; reflexivity).
    rewrite rotl_bit; [|apply O|intros; now apply H|lia]. unfold Pi. assert (Hm : (x + 3 * y) mod 5 < 5) by (apply Nat.mod_upper_bound; lia).
    set (u := (x + 3 * y) mod 5) in *. clearbody u. rewrite Rho_offsets by assumption.
    set (o := nth (u + 5 * x) rho_offsets 0%Z).
    assert (Q : (if (u =? 0) && (x =? 0) then z else Z.to_nat ((Z.of_nat z - o) mod 64)) = Z.to_nat ((Z.of_nat z - o) mod 64)).
    { destruct (Nat.eqb_spec u 0) as [->|]; [|reflexivity]. destruct (Nat.eqb_spec x 0) as [->|]; [|reflexivity].
      cbn [andb]. unfold o. change (nth (0 + 5 * 0) rho_offsets 0%Z) with 0%Z. rewrite Z.sub_0_r, Z.mod_small by lia. lia. }
    rewrite Q. pose proof (Z.mod_pos_bound (Z.of_nat z - o) 64 ltac:(lia)) as B.
    rewrite E; [|assumption|assumption|lia]. rewrite Z2Nat.id by lia. reflexivity.
Qed.
Lemma chi_agree a A : agree a A -> agree (chi a) (Chi A).
Proof.
  intros (H & L & E). unfold chi. cbv zeta. split; [|split].
  - apply low_all25. intros i z Hi Hz. rewrite Z.lxor_spec, Z.land_spec, !H by exact Hz. now rewrite andb_false_r.
  - apply all25_length.
  - intros x y z Hx Hy Hz. rewrite lane_all25. destruct (Nat.ltb_spec (x + 5 * y) 25); [|lia].
    replace ((x + 5 * y) mod 5) with x by (rewrite Nat.add_comm, Nat.mul_comm, Nat.add_comm, Nat.mod_add by lia; symmetry; now apply Nat.mod_small).
    replace ((x + 5 * y) / 5) with y by (rewrite Nat.mul_comm, Nat.div_add, Nat.div_small by lia; reflexivity).
    rewrite Z.lxor_spec, Z.land_spec, Z.lxor_spec. unfold Chi.
    rewrite !E by (try apply Nat.mod_upper_bound; lia). do 2 f_equal. f_equal.
    change (m64 - 1)%Z with (Z.ones 64). rewrite Z.ones_spec_low by lia. reflexivity.
Qed.
Lemma iota_agree a A ir : agree a A -> ir < 24 -> agree (iota (nth ir round_constants 0%Z) a) (Iota ir A).
Proof.
  intros (H & L & E) Hir. destruct a as [|v a]; [discriminate L|]. cbn [iota].
  assert (C : (0 <= nth ir round_constants 0 < 2 ^ 64)%Z).
  { do 24 (destruct ir as [|ir]; [cbv; split; [discriminate|reflexivity]|]). lia. }
  set (c := nth ir round_constants 0%Z) in *.
  assert (B : forall z, z < 64 -> Z.testbit c (Z.of_nat z) = RC ir z).
  { intros z Hz. unfold c. clear - Hir Hz.
    assert (T : forallb (fun ir => forallb (fun z => Bool.eqb (Z.testbit (nth ir round_constants 0%Z) (Z.of_nat z)) (RC ir z)) (seq 0 64)) (seq 0 24) = true).
    { vm_compute. reflexivity. }
    rewrite forallb_forall in T. specialize (T ir ltac:(apply in_seq; lia)). cbv beta in T. rewrite forallb_forall in T.
    specialize (T z ltac:(apply in_seq; lia)). now apply eqb_prop in T. }
  split; [|split].
  - intros i z Hz. destruct i as [|i]; [|exact (H (S i) z Hz)]. unfold lane. cbn [nth]. rewrite Z.lxor_spec. pose proof (H 0 z Hz) as H0.
    unfold lane in H0. cbn [nth] in H0. rewrite H0. rewrite <- (Z.mod_small c (2 ^ 64)) by exact C. rewrite Z.mod_pow2_bits_high by lia. reflexivity.
  - exact L.
  - intros x y z Hx Hy Hz. unfold Iota. rewrite E by assumption. destruct x as [|x], y as [|y]; cbn [Nat.eqb andb]; try reflexivity.
    cbn [Nat.mul Nat.add]. unfold lane. cbn [nth]. rewrite Z.lxor_spec. f_equal. symmetry. now apply B.
Qed.
Lemma rounds_agree n : forall k a A, agree a A -> k + n = 24 ->
  agree (fold_left keccak_round (skipn k round_constants) a) (fold_left Rnd (seq k n) A).
Proof.
  induction n as [|n IH]; intros k a A K Hk.
  - rewrite Nat.add_0_r in Hk. subst. exact K.
  - assert (SK : skipn k round_constants = nth k round_constants 0%Z :: skipn (S k) round_constants).
    { assert (Lk : k < 24) by lia. clear - Lk. do 24 (destruct k as [|k]; [reflexivity|]). lia. }
    rewrite SK. cbn [fold_left seq]. apply IH; [|lia]. unfold Rnd, keccak_round. apply iota_agree; [|lia].
    now apply chi_agree, rho_pi_agree, theta_agree.
Qed.
Lemma agree_of_state a A : agree a A -> of_state A = flat_map (wbits 64) a.
Proof.
  intros (H & L & E).
  assert (T : of_state A = flat_map (fun y => flat_map (fun x => wbits 64 (lane a (x + 5 * y))) (seq 0 5)) (seq 0 5)).
  { unfold of_state. assert (X : forall (f g : nat -> list bool) l, (forall i, In i l -> f i = g i) -> flat_map f l = flat_map g l).
    { intros f g l K. induction l as [|i l IH]; [reflexivity|]. cbn [flat_map]. rewrite K by (now left). f_equal. apply IH. intros; apply K; now right. }
    apply X. intros y Hy. apply X. intros x Hx. apply map_ext_in. intros z Hz. apply in_seq in Hx, Hy, Hz. apply E; lia. }
  rewrite T. clear -L. do 25 (destruct a as [|? a]; [discriminate L|]). destruct a; [|discriminate L].
  cbn [seq flat_map Nat.add Nat.mul lane nth]. unfold lane. cbn [nth]. rewrite !app_nil_r, <- !app_assoc. reflexivity.
Qed.
Lemma keccak_bits s : wf_bytes s -> length s = 200 -> bits_of (keccak_f s) = Keccak_p (bits_of s).
Proof.
  intros W L. unfold keccak_f, Keccak_p. rewrite bits_of_lanes.
  assert (Ll : length (to_lanes 25 s) = 25) by reflexivity.
  assert (I0 : agree (to_lanes 25 s) (to_state (bits_of s))).
  { split; [|split].
    - intros i z Hz. rewrite lane_error. destruct (nth_error (to_lanes 25 s) i) as [v|] eqn:E; [|apply Z.bits_0].
      assert (Bv : forall n s v, wf_bytes s -> In v (to_lanes n s) -> (0 <= v < 2 ^ 64)%Z).
      { clear. induction n as [|n IH]; intros s v W Hv; [contradiction|]. cbn [to_lanes] in Hv. rewrite <- (firstn_skipn 8 s) in W. apply Forall_app in W. destruct W as (W1 & W2).
        destruct Hv as [<-|Hv]; [|now apply (IH (skipn 8 s))]. pose proof (le_val_bound _ W1) as B.
        assert (256 ^ Z.of_nat (length (firstn 8 s)) <= 256 ^ 8)%Z by (apply Z.pow_le_mono_r; [lia|]; rewrite firstn_length; lia).
        change (256 ^ 8)%Z with (2 ^ 64)%Z in *. lia. }
      apply nth_error_In in E. specialize (Bv _ _ _ W E). rewrite <- (Z.mod_small v (2 ^ 64)) by exact Bv. apply Z.mod_pow2_bits_high. lia.
    - exact Ll.
    - intros x y z Hx Hy Hz. unfold to_state. rewrite <- (to_of_lanes 25 s W L) at 1. rewrite bits_of_lanes.
      rewrite (nth_flat 64 (wbits 64)) by (exact (wbits_length 64) || exact Hz). rewrite (Nat.add_comm x), lane_error.
      destruct (nth_error (to_lanes 25 s) (5 * y + x)) as [v|]; [now apply wbits_nth|]. now rewrite Z.bits_0. }
  symmetry. apply agree_of_state. exact (rounds_agree 24 0 _ _ I0 eq_refl).
Qed.

(** ** The sponge *)
Lemma bits_xor a : forall b, length a = length b ->
  bits_of (map (fun p => Z.lxor (fst p) (snd p)) (combine a b)) = xor_bits (bits_of a) (bits_of b).
Proof.
  induction a as [|x a IH]; intros [|y b] L; try discriminate L; [reflexivity|]. cbn [combine map fst snd]. rewrite !bits_of_cons, IH by (cbn in L; lia).
  unfold xor_bits. unfold wbits. cbn [seq map app combine fst snd]. rewrite !Z.lxor_spec. reflexivity.
Qed.
Lemma bits_xor_front a b : length b <= length a ->
  bits_of (xor_front a b) = xor_bits (bits_of a) (bits_of b ++ repeat false (8 * (length a - length b))).
Proof.
  intros L. unfold xor_front. rewrite bits_xor by (rewrite app_length, repeat_length; lia). now rewrite bits_of_app, bits_of_zeros.
Qed.
Lemma pieces_bits r n : forall m, pieces (8 * r) n (bits_of m) = map bits_of (blocks r n m).
Proof.
  induction n as [|n IH]; intros m; [reflexivity|]. cbn [pieces blocks map]. rewrite <- bits_of_firstn, <- bits_of_skipn, IH. reflexivity.
Qed.
Lemma zeros_app a b : repeat false a ++ repeat false b = repeat false (a + b).
Proof. symmetry. apply repeat_app. Qed.
Lemma pad_eq rate ds suffix m : (0 < rate) ->
  (ds = 6%Z /\ suffix = [false; true] \/ ds = 1%Z /\ suffix = []) ->
  bits_of (sponge_padded rate ds m) =
    (bits_of m ++ suffix) ++ pad10star1 (8 * rate) (length (bits_of m ++ suffix)).
Proof.
  intros R D. unfold sponge_padded, pad10star1. rewrite app_length, bits_of_length.
  pose proof (Nat.div_mod (length m) rate ltac:(lia)) as Q. pose proof (Nat.mod_upper_bound (length m) rate ltac:(lia)) as U.
  set (q := length m / rate) in *. set (e := length m mod rate) in *. clearbody q e.
  assert (J : Z.to_nat ((- Z.of_nat (8 * length m + length suffix) - 2) mod Z.of_nat (8 * rate)) = 8 * (rate - e) - length suffix - 2).
  { assert (Ls : length suffix <= 2) by (destruct D as [(_ & ->)|(_ & ->)]; cbn; lia).
    rewrite <- (Z.mod_unique_pos (- Z.of_nat (8 * length m + length suffix) - 2) (Z.of_nat (8 * rate)) (- Z.of_nat q - 1)
       (Z.of_nat (8 * (rate - e) - length suffix - 2))); [lia|lia|]. rewrite Q. nia. }
  rewrite J. rewrite <- !app_assoc. 
  destruct (rate - e) as [|[|k]] eqn:Ek; [lia| |].
  - rewrite bits_of_app. f_equal. destruct D as [(-> & ->)|(-> & ->)]; reflexivity.
  - rewrite !bits_of_app, bits_of_zeros. f_equal. replace (S (S k) - 2) with k by lia.
    destruct D as [(-> & ->)|(-> & ->)].
    + change (length [false; true]) with 2. replace (8 * S (S k) - 2 - 2) with (5 + (8 * k + 7)) by lia.
      rewrite <- !zeros_app, <- !app_assoc. reflexivity.
    + change (length (@nil bool)) with 0. replace (8 * S (S k) - 0 - 2) with (7 + (8 * k + 7)) by lia.
      rewrite <- !zeros_app, <- !app_assoc. reflexivity.
Qed.
Lemma padded_blocks rate ds m : 0 < rate -> exists n, length (sponge_padded rate ds m) = n * rate.
Proof.
  intros R. unfold sponge_padded. pose proof (Nat.div_mod (length m) rate ltac:(lia)) as Q. pose proof (Nat.mod_upper_bound (length m) rate ltac:(lia)) as U.
  exists (length m / rate + 1). destruct (rate - length m mod rate) as [|[|k]] eqn:Ek; [lia| |]; rewrite !app_length; cbn [length]; [nia|]. rewrite repeat_length. nia.
Qed.
Lemma absorb f F rate (Hf : forall s, wf_bytes s -> length s = 200 -> bits_of (f s) = F (bits_of s))
  (Hl : forall s, length s = 200 -> length (f s) = 200 /\ wf_bytes (f s)) : rate <= 200 ->
  forall bs st, Forall (fun b => length b = rate /\ wf_bytes b) bs -> wf_bytes st -> length st = 200 ->
  bits_of (fold_left (fun st b => f (xor_front st b)) bs st) =
    fold_left (fun s pi => F (xor_bits s (pi ++ repeat false (1600 - 8 * rate)))) (map bits_of bs) (bits_of st).
Proof.
  intros R bs. induction bs as [|b bs IH]; intros st B W L; [reflexivity|]. inversion B as [|? ? (Lb & Wb) B']; subst. cbn [fold_left map].
  assert (Lx : length (xor_front st b) = 200) by (rewrite xor_front_in, xor_in_length; exact L).
  assert (Wx : wf_bytes (xor_front st b)).
  { unfold xor_front. apply Forall_map. apply Forall_forall. intros (x, y) Hp. cbn [fst snd].
    pose proof (in_combine_l _ _ _ _ Hp) as Hx. pose proof (in_combine_r _ _ _ _ Hp) as Hy.
    assert (Bx : is_byte x) by (unfold wf_bytes in W; rewrite Forall_forall in W; now apply W).
    assert (By : is_byte y).
    { apply in_app_or in Hy. destruct Hy as [Hy|Hy]; [unfold wf_bytes in Wb; rewrite Forall_forall in Wb; now apply Wb|]. apply repeat_spec in Hy. subst. unfold is_byte. lia. }
    unfold is_byte in *. assert (E : Z.lxor x y = (Z.lxor x y mod 2 ^ 8)%Z); [|rewrite E; apply Z.mod_pos_bound; lia].
    apply Z.bits_inj'. intros n Hn. destruct (Z_lt_dec n 8); [now rewrite Z.mod_pow2_bits_low by lia|].
    rewrite Z.mod_pow2_bits_high by lia. rewrite Z.lxor_spec, <- (Z.mod_small x (2 ^ 8)), <- (Z.mod_small y (2 ^ 8)) by lia.
    now rewrite !Z.mod_pow2_bits_high by lia. }
  destruct (Hl _ Lx) as (Lf & Wf). rewrite IH by assumption. f_equal. rewrite Hf by assumption. f_equal.
  rewrite bits_xor_front by lia. do 3 f_equal. lia.
Qed.
Lemma blocks_wf r n : forall m, wf_bytes m -> length m = n * r -> Forall (fun b => length b = r /\ wf_bytes b) (blocks r n m).
Proof.
  induction n as [|n IH]; intros m W L; [constructor|]. cbn [blocks]. rewrite <- (firstn_skipn r m) in W. apply Forall_app in W. destruct W as (W1 & W2).
  constructor; [split; [rewrite firstn_length; nia|assumption]|]. apply IH; [assumption|rewrite skipn_length; nia].
Qed.
Lemma sponge_bits f F rate ds suffix out m
  (Hf : forall s, wf_bytes s -> length s = 200 -> bits_of (f s) = F (bits_of s))
  (Hl : forall s, length s = 200 -> length (f s) = 200 /\ wf_bytes (f s)) :
  0 < rate -> rate <= 200 -> 0 < out -> out <= rate -> wf_bytes m -> (ds = 6%Z /\ suffix = [false; true] \/ ds = 1%Z /\ suffix = []) ->
  bits_of (sponge_hash f rate ds out m) = sponge_of F pad10star1 1600 (8 * rate) (bits_of m ++ suffix) (8 * out).
Proof.
  intros R R2 O O2 W D. unfold sponge_hash, sponge_of. cbv zeta. rewrite <- (pad_eq rate ds suffix m R D).
  destruct (padded_blocks rate ds m R) as (n & Ln).
  assert (Wp : wf_bytes (sponge_padded rate ds m)).
  { unfold sponge_padded. assert (is_byte 128 /\ is_byte 0 /\ is_byte ds /\ is_byte (Z.lxor ds 128)) as (B1 & B0 & Bd & Bx) by (destruct D as [(-> & _)|(-> & _)]; cbv; repeat split; congruence).
    assert (Z0 : forall k, wf_bytes (repeat 0%Z k)) by (intros k; apply Forall_forall; intros x Hx; apply repeat_spec in Hx; now subst).
    assert (One : forall x, is_byte x -> Forall is_byte [x]) by (intros x Hx; repeat constructor; apply Hx).
    destruct (rate - length m mod rate) as [|[|k]]; unfold wf_bytes; rewrite ?Forall_app; repeat split; try exact W; try (apply One; assumption); apply Z0. }
  rewrite bits_of_length. replace (8 * length (sponge_padded rate ds m) / (8 * rate)) with (length (sponge_padded rate ds m) / rate) by (rewrite Nat.div_mul_cancel_l; lia).
  assert (Dn : length (sponge_padded rate ds m) / rate = n) by (rewrite Ln; apply Nat.div_mul; lia). rewrite Dn.
  rewrite pieces_bits, bits_of_firstn.
  rewrite (absorb f F rate Hf Hl R2); [|now apply blocks_wf| |apply repeat_length].
  2:{ apply Forall_forall. intros x Hx. apply repeat_spec in Hx. subst. unfold is_byte. lia. }
  rewrite (bits_of_zeros 200). change (8 * 200) with 1600.
  set (s := fold_left _ _ _). clearbody s.
  assert (E1 : (8 * out + 8 * rate - 1) / (8 * rate) = 1) by (symmetry; apply (Nat.div_unique _ _ _ (8 * out - 1)); lia).
  rewrite E1. cbn [squeeze]. rewrite app_nil_r, firstn_firstn. f_equal. lia.
Qed.

Lemma fips_sha3_512 parts : Forall wf_bytes parts -> exists d, HashesSha3_512 parts = Ok d /\ wf_bytes d /\ length d = 64 /\
  bits_of d = SHA3_512 (bits_of (concat parts)).
Proof.
  intros W. eexists. split; [apply sha3_512_parts|].
  assert (LW : length (sponge_hash keccak_f 72 6 64 (concat parts)) = 64 /\ wf_bytes (sponge_hash keccak_f 72 6 64 (concat parts))) by (apply sponge_hash_ok; first [exact keccak_f_ok|lia]).
    destruct LW as (L & Wd). split; [assumption|]. split; [assumption|].
  unfold SHA3_512, Keccak. change (1600 - 1024) with (8 * 72). change 512 with (8 * 64).
  apply sponge_bits; try exact keccak_bits; try exact keccak_f_ok; try lia; auto. now apply Forall_concat.
Qed.
Lemma fips_256 b : wf_bytes b ->
  (exists d, HashesSha3_256 b = Ok d /\ wf_bytes d /\ length d = 32 /\ bits_of d = SHA3_256 (bits_of b)) /\
  (exists d, HashesKeccak_256 b = Ok d /\ wf_bytes d /\ length d = 32 /\ bits_of d = Keccak_256 (bits_of b)).
Proof.
  intros W. split.
  - eexists. split; [apply sha3_256_one|]. assert (LW : length (sponge_hash keccak_f 136 6 32 b) = 32 /\ wf_bytes (sponge_hash keccak_f 136 6 32 b)) by (apply sponge_hash_ok; first [exact keccak_f_ok|lia]).
    destruct LW as (L & Wd).
    split; [assumption|]. split; [assumption|]. unfold SHA3_256, Keccak. change (1600 - 512) with (8 * 136). change 256 with (8 * 32).
    apply sponge_bits; try exact keccak_bits; try exact keccak_f_ok; try lia; auto.
  - eexists. split; [apply keccak_256_one|]. assert (LW : length (sponge_hash keccak_f 136 1 32 b) = 32 /\ wf_bytes (sponge_hash keccak_f 136 1 32 b)) by (apply sponge_hash_ok; first [exact keccak_f_ok|lia]).
    destruct LW as (L & Wd).
    split; [assumption|]. split; [assumption|]. unfold Keccak_256, Keccak. change (1600 - 512) with (8 * 136). change 256 with (8 * 32).
    rewrite <- (app_nil_r (bits_of b)). apply sponge_bits; try exact keccak_bits; try exact keccak_f_ok; try lia; auto.
Qed.
