(** Lemmas behind [PropSha2]: [HashesSha_256] computes the digest FIPS 180-4 defines, and nothing else is one. *)
From Coq Require Import List ZArith Lia Bool Arith Znumtheory FinFun.
From Verif Require Import GoBase ByteLemmas HashSpec MdModel MdSpec MdProofs PropMdLemmas Sha2Spec.
Import ListNotations.
Open Scope Z_scope.

(** ** Words *)
Lemma rotl32_sum x n : is_word x -> 0 < n < 32 -> rotl32 x n = (x * 2 ^ n) mod 2 ^ 32 + x / 2 ^ (32 - n).
Proof.
  intros [L U] N. unfold rotl32, w32. rewrite Z.shiftl_mul_pow2 by lia. rewrite Z.shiftr_div_pow2 by lia.
  assert (E : (x * 2 ^ n) mod 2 ^ 32 = (x mod 2 ^ (32 - n)) * 2 ^ n).
  { replace 32 with ((32 - n) + n) at 1 by lia. rewrite Z.pow_add_r by lia.
    apply Z.mul_mod_distr_r; apply Z.pow_nonzero; lia. }
  rewrite E, Z.lor_comm, lor_add; [lia|lia|]. split; [apply Z.div_pos; [lia|apply Z.pow_pos_nonneg; lia]|].
  apply Z.div_lt_upper_bound; [apply Z.pow_pos_nonneg; lia|]. rewrite <- Z.pow_add_r by lia.
  replace (32 - n + n) with 32 by lia. exact U.
Qed.
Lemma rotr32_ROTR x n : is_word x -> 0 < n < 32 -> rotr32 x n = ROTR n x.
Proof.
  intros W N. unfold rotr32. rewrite rotl32_sum by (assumption || lia). unfold ROTR.
  replace (32 - (32 - n)) with n by lia.
  replace ((x * 2 ^ (32 - n)) mod 2 ^ 32) with ((x mod 2 ^ n) * 2 ^ (32 - n)); [lia|].
  replace 32 with (n + (32 - n)) at 3 by lia. rewrite Z.pow_add_r by lia.
  symmetry. apply Z.mul_mod_distr_r; apply Z.pow_nonzero; lia.
Qed.
Lemma not32_sub x : is_word x -> not32 x = 2 ^ 32 - 1 - x.
Proof.
  intros [L U]. unfold not32.
  assert (E : Z.ldiff x (Z.ones 32) = 0).
  { destruct (Z.eq_dec x 0) as [->|N]; [reflexivity|]. apply Z.ldiff_ones_r_low; [exact L|]. apply Z.log2_lt_pow2; lia. }
  change (2 ^ 32 - 1) with (Z.ones 32). rewrite (Z.sub_nocarry_ldiff _ _ E). apply Z.bits_inj'. intros i Hi.
  rewrite Z.lxor_spec, Z.ldiff_spec, Z.testbit_ones_nonneg by lia. destruct (i <? 32) eqn:B.
  - now rewrite xorb_true_r.
  - apply Z.ltb_ge in B. rewrite Bool.xorb_false_r. cbn [andb]. destruct (Z.eq_dec x 0) as [->|N]; [apply Z.bits_0|].
    apply Z.bits_above_log2; [exact L|]. assert (Z.log2 x < 32) by (apply Z.log2_lt_pow2; lia). lia.
Qed.
Lemma shiftr_SHR x n : 0 <= n -> Z.shiftr x n = SHR n x.
Proof. intros. unfold SHR. now apply Z.shiftr_div_pow2. Qed.

(** ** Numbers of bit strings *)
Lemma number_acc l : forall a, fold_left (fun a b => 2 * a + Z.b2z b) l a = a * 2 ^ Z.of_nat (length l) + number l.
Proof.
  unfold number. induction l as [|b l IH]; intros a; cbn [fold_left length]; [cbn; lia|].
  rewrite IH, (IH (2 * 0 + Z.b2z b)). rewrite Nat2Z.inj_succ, Z.pow_succ_r by lia. ring.
Qed.
Lemma number_cons b l : number (b :: l) = Z.b2z b * 2 ^ Z.of_nat (length l) + number l.
Proof. unfold number at 1. cbn [fold_left]. rewrite number_acc. ring. Qed.
Lemma number_app a b : number (a ++ b) = number a * 2 ^ Z.of_nat (length b) + number b.
Proof. unfold number at 1. rewrite fold_left_app. fold (number a). apply number_acc. Qed.
Lemma number_range l : 0 <= number l < 2 ^ Z.of_nat (length l).
Proof.
  induction l as [|b l IH]; [cbn; lia|]. rewrite number_cons. cbn [length]. rewrite Nat2Z.inj_succ, Z.pow_succ_r by lia.
  destruct b; cbn [Z.b2z]; lia.
Qed.
Lemma number_inj a : forall b, length a = length b -> number a = number b -> a = b.
Proof.
  induction a as [|x a IH]; intros [|y b]; cbn [length]; intros L E; try discriminate L; [reflexivity|].
  rewrite !number_cons in E. injection L as L. rewrite <- L in E. pose proof (number_range a). pose proof (number_range b).
  rewrite <- L in *. assert (x = y) by (destruct x, y; cbn [Z.b2z] in E; lia || reflexivity). subst y. f_equal. apply IH; [exact L|lia].
Qed.
Lemma msb_app a b : msb_bits (a ++ b) = msb_bits a ++ msb_bits b. Proof. apply flat_map_app. Qed.
Lemma msb_cons b l : msb_bits (b :: l) = map (Z.testbit b) [7; 6; 5; 4; 3; 2; 1; 0] ++ msb_bits l. Proof. reflexivity. Qed.
Lemma msb_length l : length (msb_bits l) = (8 * length l)%nat.
Proof. induction l as [|b l IH]; [reflexivity|]. rewrite msb_cons, app_length, IH. cbn [length map]. lia. Qed.
Lemma number_byte b : is_byte b -> number (map (Z.testbit b) [7; 6; 5; 4; 3; 2; 1; 0]) = b.
Proof.
  intros Hb. unfold number. cbn [map fold_left]. rewrite !Z.testbit_spec' by lia. unfold is_byte in Hb.
  change (2 ^ 7) with 128. change (2 ^ 6) with 64. change (2 ^ 5) with 32. change (2 ^ 4) with 16. change (2 ^ 3) with 8.
  change (2 ^ 2) with 4. change (2 ^ 1) with 2. change (2 ^ 0) with 1. Z.to_euclidean_division_equations. lia.
Qed.
Lemma number_msb l : wf_bytes l -> number (msb_bits l) = le_val (rev l).
Proof.
  induction 1 as [|b l Hb Hl IH]; [reflexivity|]. rewrite msb_cons, number_app, number_byte, IH by exact Hb. cbn [rev].
  rewrite le_val_app, rev_length, msb_length. cbn [le_val]. rewrite Nat2Z.inj_mul, Z.pow_mul_r by lia. change (2 ^ Z.of_nat 8) with 256. ring.
Qed.
Lemma msb_firstn n : forall l, msb_bits (firstn n l) = firstn (8 * n) (msb_bits l).
Proof.
  induction n as [|n IH]; intros l; [reflexivity|]. destruct l as [|b l]; [now rewrite firstn_nil|].
  cbn [firstn]. rewrite !msb_cons, IH. replace (8 * S n)%nat with (length (map (Z.testbit b) [7; 6; 5; 4; 3; 2; 1; 0]%Z) + 8 * n)%nat by (cbn [map length]; lia).
  now rewrite firstn_app_2.
Qed.
Lemma msb_skipn n : forall l, msb_bits (skipn n l) = skipn (8 * n) (msb_bits l).
Proof.
  induction n as [|n IH]; intros l; [reflexivity|]. destruct l as [|b l]; [now rewrite skipn_nil|].
  cbn [skipn]. rewrite msb_cons, IH. replace (8 * S n)%nat with (length (map (Z.testbit b) [7; 6; 5; 4; 3; 2; 1; 0]%Z) + 8 * n)%nat by (cbn [map length]; lia).
  rewrite skipn_app, (skipn_all2 (map _ _)) by (cbn [map length]; lia). cbn [app]. f_equal. cbn [map length]. lia.
Qed.
Lemma msb_inj a b : wf_bytes a -> wf_bytes b -> msb_bits a = msb_bits b -> a = b.
Proof.
  intros Ha Hb E. assert (L : length a = length b) by (pose proof (f_equal (@length bool) E) as L; rewrite !msb_length in L; lia).
  rewrite <- (rev_involutive a), <- (rev_involutive b). f_equal. apply le_val_inj; [now apply Forall_rev|now apply Forall_rev|now rewrite !rev_length|].
  rewrite <- !number_msb by assumption. now rewrite E.
Qed.
Lemma piece_msb n i l : piece (8 * n) i (msb_bits l) = msb_bits (firstn n (skipn (n * i) l)).
Proof. unfold piece. rewrite msb_firstn, msb_skipn. do 2 f_equal. lia. Qed.
Lemma skipn_twice {A} a b (l : list A) : skipn a (skipn b l) = skipn (b + a) l.
Proof.
  revert l. induction b as [|b IH]; intros l; [reflexivity|]. destruct l as [|x l]; [now rewrite !skipn_nil|]. cbn [skipn Nat.add]. apply IH.
Qed.
Lemma pieces_inj (n k : nat) : forall a b : list bool, length a = (n * k)%nat -> length b = (n * k)%nat ->
  (forall i, (i < k)%nat -> piece n i a = piece n i b) -> a = b.
Proof.
  induction k as [|k IH]; intros a b La Lb E.
  - rewrite Nat.mul_0_r in La, Lb. apply length_zero_iff_nil in La, Lb. congruence.
  - rewrite <- (firstn_skipn n a), <- (firstn_skipn n b). f_equal.
    + specialize (E 0%nat ltac:(lia)). unfold piece in E. rewrite Nat.mul_0_r in E. exact E.
    + apply IH; [rewrite skipn_length; lia|rewrite skipn_length; lia|]. intros i Hi. specialize (E (S i) ltac:(lia)).
      unfold piece in E |- *. rewrite !skipn_twice. replace (n + n * i)%nat with (n * S i)%nat by lia. exact E.
Qed.

(** ** The constants *)
Definition range (a n : nat) : list Z := map Z.of_nat (seq a n).
Lemma in_range a n q : In q (range a n) <-> Z.of_nat a <= q < Z.of_nat (a + n).
Proof.
  unfold range. rewrite in_map_iff. split.
  - intros (k & <- & H). apply in_seq in H. lia.
  - intros H. exists (Z.to_nat q). split; [lia|]. apply in_seq. lia.
Qed.
Definition no_divisor (n : Z) : bool := forallb (fun d => negb (n mod d =? 0)) (range 2 (Z.to_nat n - 2)).
Lemma no_divisor_prime n : 2 <= n -> no_divisor n = true <-> prime n.
Proof.
  intros L. rewrite <- prime_alt. unfold no_divisor. rewrite forallb_forall. split.
  - intros H. split; [lia|]. intros d Hd D. specialize (H d ltac:(apply in_range; lia)). apply Z.mod_divide in D; [|lia].
    rewrite D in H. discriminate H.
  - intros [_ H] d Hd. apply in_range in Hd. destruct (Z.eqb_spec (n mod d) 0) as [E|E]; [|reflexivity]. exfalso.
    apply (H d); [lia|]. apply Z.mod_divide; [lia|exact E].
Qed.
Definition first_primes : list Z :=
  [2; 3; 5; 7; 11; 13; 17; 19; 23; 29; 31; 37; 41; 43; 47; 53; 59; 61; 67; 71; 73; 79; 83; 89; 97; 101; 103; 107; 109;
   113; 127; 131; 137; 139; 149; 151; 157; 163; 167; 173; 179; 181; 191; 193; 197; 199; 211; 223; 227; 229; 233; 239;
   241; 251; 257; 263; 269; 271; 277; 281; 283; 293; 307; 311].
Lemma first_primes_ok : filter no_divisor (range 2 310) = first_primes.
Proof. vm_cast_no_check (eq_refl first_primes). Qed.
Lemma first_primes_in q : In q first_primes <-> 2 <= q < 312 /\ prime q.
Proof.
  rewrite <- first_primes_ok, filter_In, in_range. change (Z.of_nat 2) with 2. change (Z.of_nat (2 + 310)) with 312.
  split; intros [R P]; (split; [exact R|]); apply (no_divisor_prime q ltac:(lia)); exact P.
Qed.
Lemma range_nodup a n : NoDup (range a n).
Proof. apply FinFun.Injective_map_NoDup; [intros x y; lia|apply seq_NoDup]. Qed.
Lemma first_primes_ranks : forallb (fun t => Nat.eqb (length (filter (fun q => q <? nth t first_primes 0) first_primes)) t) (seq 0 64) = true.
Proof. vm_compute. reflexivity. Qed.
Lemma prime_number_nth t : (t < 64)%nat -> prime_number t (nth t first_primes 0).
Proof.
  intros L. assert (I : In (nth t first_primes 0) first_primes) by (apply nth_In; exact L).
  pose proof first_primes_ranks as R. rewrite forallb_forall in R. specialize (R t ltac:(apply in_seq; lia)). apply Nat.eqb_eq in R.
  apply first_primes_in in I. split; [apply I|]. exists (filter (fun q => q <? nth t first_primes 0) first_primes).
  split; [apply NoDup_filter; rewrite <- first_primes_ok; apply NoDup_filter, range_nodup|]. split; [exact R|].
  intros q. rewrite filter_In, first_primes_in, Z.ltb_lt. split; [tauto|]. intros [P Q]. pose proof (prime_ge_2 q P). split; [split; [lia|exact P]|exact Q].
Qed.
Lemma prime_number_unique t p q : prime_number t p -> prime_number t q -> p = q.
Proof.
  assert (LT : forall p q, p < q -> prime_number t p -> prime_number t q -> False).
  { clear. intros p q L (Pp & lp & Np & Ep & Ip) (Pq & lq & Nq & Eq & Iq).
    assert (NoDup (p :: lp)) by (constructor; [intros H; apply Ip in H; lia|exact Np]).
    assert (incl (p :: lp) lq).
    { intros x [<-|Hx]; apply Iq; [now split|]. apply Ip in Hx. split; [apply Hx|lia]. }
    pose proof (NoDup_incl_length H H0) as C. cbn [length] in C. lia. }
  intros Hp Hq. destruct (Z.lt_trichotomy p q) as [H|[H|H]]; [exfalso; eauto|exact H|exfalso; eauto].
Qed.
Lemma root_fraction_unique n p c d : 0 <= n -> root_fraction n p c -> root_fraction n p d -> c = d.
Proof.
  intros Hn (r & R0 & [R1 R2] & ->) (s & S0 & [S1 S2] & ->). f_equal.
  destruct (Z.lt_trichotomy r s) as [H|[H|H]]; [exfalso|exact H|exfalso].
  - pose proof (Z.pow_le_mono_l (r + 1) s n ltac:(lia)). lia.
  - pose proof (Z.pow_le_mono_l (s + 1) r n ltac:(lia)). lia.
Qed.
Definition root_check (n : Z) (pc : Z * Z) : bool :=
  existsb (fun a => let r := snd pc + Z.of_nat a * 2 ^ 32 in
    (0 <=? r) && (snd pc <? 2 ^ 32) && (0 <=? snd pc) && (r ^ n <=? fst pc * 2 ^ (32 * n)) && (fst pc * 2 ^ (32 * n) <? (r + 1) ^ n)) (seq 0 8).
Lemma root_check_ok n p c : root_check n (p, c) = true -> root_fraction n p c.
Proof.
  intros H. apply existsb_exists in H. destruct H as (a & _ & H). cbn [fst snd] in H. rewrite !andb_true_iff in H.
  destruct H as ((((H1 & H2) & H3) & H4) & H5). exists (c + Z.of_nat a * 2 ^ 32). rewrite Z.mod_add by lia.
  rewrite (Z.mod_small c) by lia. repeat split; lia.
Qed.
Lemma roots_3 : forallb (root_check 3) (combine first_primes sha256_k) = true. Proof. vm_compute. reflexivity. Qed.
Lemma roots_2 : forallb (root_check 2) (combine (firstn 8 first_primes) sha256_init) = true. Proof. vm_compute. reflexivity. Qed.
Lemma combine_in {A B} (l : list A) (m : list B) a b i : length l = length m -> (i < length l)%nat -> In (nth i l a, nth i m b) (combine l m).
Proof. intros L I. rewrite <- combine_nth by exact L. apply nth_In. rewrite combine_length. lia. Qed.
Lemma k_constants : round_constants_256 (word sha256_k).
Proof.
  intros t L. exists (nth t first_primes 0). split; [now apply prime_number_nth|]. apply root_check_ok.
  pose proof roots_3 as R. rewrite forallb_forall in R. apply R. apply combine_in; [reflexivity|exact L].
Qed.
Lemma init_constants : initial_value_256 (word sha256_init).
Proof.
  intros t L. exists (nth t first_primes 0). split; [apply prime_number_nth; lia|]. apply root_check_ok.
  pose proof roots_2 as R. rewrite forallb_forall in R. apply R.
  replace (nth t first_primes 0) with (nth t (firstn 8 first_primes) 0).
  - apply combine_in; [reflexivity|exact L].
  - do 8 (destruct t as [|t]; [reflexivity|]). exfalso. lia.
Qed.

(** ** One block *)
Lemma wf_skip4 n (l : bytes) : wf_bytes l -> wf_bytes (skipn n l).
Proof. intros W. rewrite <- (firstn_skipn n l) in W. now apply Forall_app in W. Qed.
Lemma wf_first4 n (l : bytes) : wf_bytes l -> wf_bytes (firstn n l).
Proof. intros W. rewrite <- (firstn_skipn n l) in W. now apply Forall_app in W. Qed.
Lemma nth_skipn_0 {A} (l : list A) d t : nth 0 (skipn t l) d = nth t l d.
Proof. revert l. induction t as [|t IH]; intros [|x l]; try reflexivity. apply IH. Qed.
Lemma words_length read n : forall p, length (words read n p) = n.
Proof. induction n as [|n IH]; intros p; [reflexivity|]. cbn [words length]. now rewrite IH. Qed.
Lemma words_nth read n : forall p t, (t < n)%nat -> word (words read n p) t = read (firstn 4 (skipn (4 * t) p)).
Proof.
  induction n as [|n IH]; intros p t L; [lia|]. destruct t as [|t]; [reflexivity|]. cbn [words]. unfold word in *. cbn [nth].
  rewrite IH by lia. rewrite skipn_twice. do 3 f_equal. lia.
Qed.
Lemma schedule_S n : forall w, sha256_schedule (S n) w = sha256_schedule n w ++ [sha256_next (sha256_schedule n w)].
Proof. induction n as [|n IH]; intros w; [reflexivity|]. cbn [sha256_schedule] in IH |- *. apply IH. Qed.
Lemma schedule_length n w : length (sha256_schedule n w) = (length w + n)%nat.
Proof. induction n as [|n IH]; [cbn; lia|]. rewrite schedule_S, app_length, IH. cbn [length]. lia. Qed.
Lemma schedule_prefix w n k t : (t < length w + n)%nat -> word (sha256_schedule (n + k) w) t = word (sha256_schedule n w) t.
Proof.
  intros L. induction k as [|k IH]; [now rewrite Nat.add_0_r|]. rewrite Nat.add_succ_r, schedule_S. unfold word in *.
  rewrite app_nth1; [exact IH|]. rewrite schedule_length. lia.
Qed.
Lemma word_forall l : Forall is_word l -> forall i, is_word (word l i).
Proof.
  intros F i. unfold word. destruct (Nat.lt_ge_cases i (length l)) as [H|H].
  - rewrite Forall_forall in F. apply F, nth_In, H.
  - rewrite nth_overflow by exact H. split; reflexivity || lia.
Qed.
Lemma sigma0_ok x : is_word x -> Z.lxor (Z.lxor (rotr32 x 7) (rotr32 x 18)) (Z.shiftr x 3) = sigma0 x.
Proof. intros W. unfold sigma0. rewrite !rotr32_ROTR, shiftr_SHR by (assumption || lia). reflexivity. Qed.
Lemma sigma1_ok x : is_word x -> Z.lxor (Z.lxor (rotr32 x 17) (rotr32 x 19)) (Z.shiftr x 10) = sigma1 x.
Proof. intros W. unfold sigma1. rewrite !rotr32_ROTR, shiftr_SHR by (assumption || lia). reflexivity. Qed.
Lemma Sigma0_ok x : is_word x -> Z.lxor (Z.lxor (rotr32 x 2) (rotr32 x 13)) (rotr32 x 22) = Sigma0 x.
Proof. intros W. unfold Sigma0. rewrite !rotr32_ROTR by (assumption || lia). reflexivity. Qed.
Lemma Sigma1_ok x : is_word x -> Z.lxor (Z.lxor (rotr32 x 6) (rotr32 x 11)) (rotr32 x 25) = Sigma1 x.
Proof. intros W. unfold Sigma1. rewrite !rotr32_ROTR by (assumption || lia). reflexivity. Qed.
Lemma schedule_words n w : Forall is_word w -> Forall is_word (sha256_schedule n w).
Proof.
  intros F. induction n as [|n IH]; [exact F|]. rewrite schedule_S. apply Forall_app. split; [exact IH|].
  constructor; [apply w32_word|constructor].
Qed.
Lemma schedule_ok w : length w = 16%nat -> Forall is_word w -> schedule_256 (word w) (word (sha256_schedule 48 w)).
Proof.
  intros L F. split.
  - intros t T. apply (schedule_prefix w 0 48). lia.
  - intros t T. remember (t - 16)%nat as n eqn:En. assert (Et : t = (16 + n)%nat) by lia.
    assert (P : forall u, (u < 16 + n)%nat -> word (sha256_schedule 48 w) u = word (sha256_schedule n w) u).
    { intros u U. replace 48%nat with (n + (48 - n))%nat by lia. apply schedule_prefix. lia. }
    assert (E : word (sha256_schedule 48 w) t = sha256_next (sha256_schedule n w)).
    { replace 48%nat with (S n + (47 - n))%nat by lia. rewrite schedule_prefix by lia. rewrite schedule_S. unfold word.
      rewrite app_nth2; rewrite schedule_length; [|lia]. replace (t - (length w + n))%nat with 0%nat by lia. reflexivity. }
    rewrite E. unfold sha256_next. cbv zeta. rewrite schedule_length, L, <- Et.
    pose proof (word_forall _ (schedule_words n w F)) as W. rewrite !P by lia. rewrite sigma0_ok, sigma1_ok by apply W.
    rewrite <- ?En. reflexivity.
Qed.
Lemma round_words s kw : Forall is_word s -> Forall is_word (sha256_round s kw).
Proof.
  intros F. destruct s as [|a [|b [|c [|d [|e [|f [|g [|h [|]]]]]]]]]; try exact F. cbn [sha256_round].
  repeat match goal with H : Forall _ (_ :: _) |- _ => inversion H; clear H; subst end.
  repeat constructor; try apply w32_word; unfold is_word in *; lia.
Qed.
Lemma round_turn s k w : length s = 8%nat -> Forall is_word s ->
  forall K W V t, K t = k -> W t = w -> V t = word s -> V (S t) = word (sha256_round s (k, w)) -> turn_256 K W V t.
Proof.
  intros L F K W V t EK EW E E'. destruct s as [|a [|b [|c [|d [|e [|f [|g [|h [|]]]]]]]]]; try discriminate L.
  repeat match goal with H : Forall _ (_ :: _) |- _ => inversion H; clear H; subst end.
  unfold turn_256. cbv zeta. rewrite E', E. cbn [word nth sha256_round fst snd].
  rewrite Sigma1_ok, Sigma0_ok, not32_sub by assumption. fold (Ch e f g) (Maj a b c). unfold w32. repeat split.
Qed.
Lemma block_ok h p : length h = 8%nat -> Forall is_word h -> wf_bytes p -> length p = 64%nat ->
  block_256 (word sha256_k) (fun t => be32 (firstn 4 (skipn (4 * t) p))) (word h) (word (sha256_block h p)).
Proof.
  intros L F Wp Lp.
  set (ws := words be32 16 p).
  assert (Fw : Forall is_word ws).
  { apply Forall_forall. intros x Hx. apply (In_nth _ _ 0) in Hx. destruct Hx as (t & T & <-). unfold ws in T. rewrite words_length in T.
    fold (word ws t). unfold ws. rewrite words_nth by exact T. unfold be32, is_word.
    assert (wf_bytes (rev (firstn 4 (skipn (4 * t) p)))) as W by (apply Forall_rev, wf_first4, wf_skip4, Wp).
    pose proof (le_val_bound _ W) as B. rewrite rev_length, firstn_length, skipn_length, Lp in B.
    replace (Nat.min 4 (64 - 4 * t)) with 4%nat in B by lia. exact B. }
  assert (Lw : length ws = 16%nat) by apply words_length.
  set (kws := combine sha256_k (sha256_schedule 48 ws)).
  set (st := fun t => fold_left sha256_round (firstn t kws) h).
  assert (Lk : length kws = 64%nat) by (unfold kws; rewrite combine_length, schedule_length, Lw; reflexivity).
  assert (St : forall t, length (st t) = 8%nat /\ Forall is_word (st t)).
  { intros t. unfold st. split; [now apply rounds8|]. generalize (firstn t kws). intros l. clear - L F. revert h L F.
    induction l as [|x l IH]; intros h L F; [exact F|]. cbn [fold_left]. apply IH; [now apply round8|now apply round_words]. }
  exists (word (sha256_schedule 48 ws)), (fun t => word (st t)). split; [|split; [|split]].
  - destruct (schedule_ok ws Lw Fw) as [A B]. split; [|exact B]. intros t T. rewrite A by exact T. unfold ws. now apply words_nth.
  - reflexivity.
  - intros t T. destruct (St t) as [L1 F1].
    apply (round_turn (st t) (word sha256_k t) (word (sha256_schedule 48 ws) t) L1 F1); try reflexivity.
    cbv beta. f_equal. unfold st.
    assert (E : firstn (S t) kws = firstn t kws ++ [(word sha256_k t, word (sha256_schedule 48 ws) t)]).
    { rewrite <- (firstn_skipn t kws) at 1. rewrite firstn_app, firstn_firstn, firstn_length, Lk.
      replace (Nat.min (S t) t) with t by lia. replace (S t - Nat.min t 64)%nat with 1%nat by lia. f_equal.
      assert (E : nth t kws (0, 0) = (word sha256_k t, word (sha256_schedule 48 ws) t)).
      { unfold kws. apply combine_nth. rewrite schedule_length, Lw. reflexivity. }
      rewrite <- E. rewrite <- (nth_skipn_0 kws (0, 0) t). destruct (skipn t kws) eqn:S; [|reflexivity].
      exfalso. apply (f_equal (@length (Z * Z))) in S. rewrite skipn_length, Lk in S. cbn [length] in S. lia. }
    rewrite E, fold_left_app. reflexivity.
  - intros j J. unfold sha256_block. fold ws. fold kws. destruct (St 64%nat) as [L1 _].
    assert (E : st 64%nat = fold_left sha256_round kws h) by (unfold st; now rewrite firstn_all2 by lia).
    rewrite <- E. unfold add_words, word. rewrite (nth_indep _ 0 (w32 (fst (0, 0) + snd (0, 0)))) by (rewrite map_length, combine_length; lia).
    rewrite (map_nth (fun p => w32 (fst p + snd p))). rewrite combine_nth by lia. cbn [fst snd]. unfold w32. now rewrite Z.add_comm.
Qed.

(** ** The message *)
Lemma msb_zeros n : msb_bits (repeat 0 n) = repeat false (8 * n).
Proof.
  induction n as [|n IH]; [reflexivity|]. cbn [repeat]. rewrite msb_cons, IH. replace (8 * S n)%nat with (8 + 8 * n)%nat by lia.
  now rewrite repeat_app.
Qed.
Lemma put_be_wf v : wf_bytes (put_be v). Proof. unfold put_be. apply Forall_rev, le_bytes_wf. Qed.
Lemma md_padded_wf put m : (forall v, wf_bytes (put v)) -> wf_bytes m -> wf_bytes (md_padded put m).
Proof.
  intros P W. unfold md_padded. cbv zeta. apply Forall_app. split; [exact W|]. apply Forall_app. split; [repeat constructor; unfold is_byte; lia|].
  apply Forall_app. split; [|apply P]. apply Forall_forall. intros x Hx. apply repeat_spec in Hx. subst x. unfold is_byte. lia.
Qed.
Lemma zeros_count (n : nat) : (Z.to_nat ((55 - Z.of_nat n) mod 64) < 64)%nat /\
  ((n + 1 + Z.to_nat ((55 - Z.of_nat n) mod 64)) mod 64 = 56)%nat.
Proof.
  pose proof (Z.mod_pos_bound (55 - Z.of_nat n) 64 eq_refl) as B. split; [lia|].
  apply Nat2Z.inj. rewrite Nat2Z.inj_mod, !Nat2Z.inj_add, Z2Nat.id by lia. change (Z.of_nat 1) with 1. change (Z.of_nat 64) with 64. change (Z.of_nat 56) with 56.
  rewrite Zplus_mod_idemp_r. replace (Z.of_nat n + 1 + (55 - Z.of_nat n)) with 56 by lia. reflexivity.
Qed.
Lemma padded_ok m : wf_bytes m -> 8 * Z.of_nat (length m) < 2 ^ 64 -> padded_512 (msb_bits m) (msb_bits (md_padded put_be m)).
Proof.
  intros W B. unfold md_padded. cbv zeta. destruct (zeros_count (length m)) as [Z1 Z2]. set (z := Z.to_nat ((55 - Z.of_nat (length m)) mod 64)) in *.
  rewrite Z.mod_small by lia. exists (7 + 8 * z)%nat, (msb_bits (put_be (8 * Z.of_nat (length m)))). split; [|split; [|split; [|split]]].
  - rewrite !msb_app, msb_zeros. reflexivity.
  - lia.
  - rewrite msb_length. replace (8 * length m + 1 + (7 + 8 * z))%nat with (8 * (length m + 1 + z))%nat by lia.
    change 512%nat with (8 * 64)%nat. now rewrite Nat.mul_mod_distr_l, Z2 by lia.
  - now rewrite msb_length, put_be_8.
  - rewrite number_msb by apply put_be_wf. unfold put_be. rewrite rev_involutive, le_bytes_val, msb_length.
    rewrite Z.mod_small; [lia|]. change (256 ^ Z.of_nat 8) with (2 ^ 64). lia.
Qed.
Lemma blocks_S r n : forall m, blocks r (S n) m = blocks r n m ++ [firstn r (skipn (r * n) m)].
Proof. intros m. rewrite <- Nat.add_1_r, blocks_app. reflexivity. Qed.
Lemma blocks_all r n : forall m, wf_bytes m -> length m = (r * n)%nat -> Forall (fun b => wf_bytes b /\ length b = r) (blocks r n m).
Proof.
  induction n as [|n IH]; intros m W L; [constructor|]. cbn [blocks]. constructor.
  - split; [now apply wf_first4|]. rewrite firstn_length. nia.
  - apply IH; [now apply wf_skip4|]. rewrite skipn_length. lia.
Qed.
Lemma sha256_bits m : wf_bytes m -> 8 * Z.of_nat (length m) < 2 ^ 64 ->
  exists d, HashesSha_256 m = Ok d /\ wf_bytes d /\ length d = 32%nat /\ is_SHA256 (msb_bits m) (msb_bits d).
Proof.
  intros W B. rewrite sha256_ok. eexists. split; [reflexivity|]. unfold md_spec. cbv zeta.
  destruct (padded_mod put_be m put_be_8) as [N LN]. pose proof (md_padded_wf put_be m put_be_wf W) as Wp.
  set (p := md_padded put_be m) in *. replace (length p / 64)%nat with N by (rewrite LN, Nat.mul_comm, Nat.div_mul; lia).
  destruct sha256_init_ok as [L0 F0].
  set (H := fun i => fold_left sha256_block (blocks 64 i p) sha256_init).
  assert (HH : forall i, length (H i) = 8%nat /\ Forall is_word (H i)) by (intros i; now apply sha256_fold_ok).
  fold (H N). destruct (HH N) as [LH FH]. destruct (be_out_ok (H N)) as [Lo Wo]. rewrite LH in Lo.
  split; [exact Wo|]. split; [exact Lo|].
  exists (word sha256_k), (msb_bits p), N, (fun i => word (H i)). split; [exact k_constants|]. split; [now apply padded_ok|].
  split; [rewrite msb_length, LN; lia|]. split; [exact init_constants|]. split; [|split].
  - intros i I. unfold H at 2. rewrite blocks_S, fold_left_app. cbn [fold_left]. fold (H i). destruct (HH i) as [Li Fi].
    set (b := firstn 64 (skipn (64 * i) p)).
    assert (Wb : wf_bytes b) by now apply wf_first4, wf_skip4. assert (Lb : length b = 64%nat) by (unfold b; rewrite firstn_length, skipn_length; lia).
    destruct (block_ok (H i) b Li Fi Wb Lb) as (Wd & V & [S1 S2] & V0 & VT & VE). exists Wd, V. split; [|auto]. split; [|exact S2].
    intros t T. rewrite S1 by exact T. change 512%nat with (8 * 64)%nat. rewrite piece_msb. fold b. change 32%nat with (8 * 4)%nat. rewrite piece_msb.
    rewrite number_msb by now apply wf_first4, wf_skip4. reflexivity.
  - now rewrite msb_length, Lo.
  - intros j J. change 32%nat with (8 * 4)%nat. rewrite piece_msb, number_msb by now apply wf_first4, wf_skip4.
    pose proof (words_be_out (H N) FH) as E. rewrite LH in E. rewrite <- E at 2. rewrite words_nth by exact J. reflexivity.
Qed.

(** ** Only one digest *)
Lemma mod_same a n r k k' : (k < n)%nat -> (k' < n)%nat -> ((a + k) mod n = r)%nat -> ((a + k') mod n = r)%nat -> k = k'.
Proof.
  intros K K' M M'. pose proof (Nat.div_mod (a + k) n ltac:(lia)) as D. pose proof (Nat.div_mod (a + k') n ltac:(lia)) as D'.
  rewrite M in D. rewrite M' in D'.
  destruct (Nat.lt_trichotomy ((a + k) / n) ((a + k') / n)) as [H|[H|H]]; [exfalso|rewrite H in D; lia|exfalso].
  - assert (n * S ((a + k) / n) <= n * ((a + k') / n))%nat by (apply Nat.mul_le_mono_l; exact H). lia.
  - assert (n * S ((a + k') / n) <= n * ((a + k) / n))%nat by (apply Nat.mul_le_mono_l; exact H). lia.
Qed.
Lemma padded_unique m p q : padded_512 m p -> padded_512 m q -> p = q.
Proof.
  intros (k & l & -> & K & Mk & Ll & Nl) (k' & l' & -> & K' & Mk' & Ll' & Nl').
  assert (k = k').
  { now apply (mod_same (length m + 1) 512 448). }
  subst k'. rewrite (number_inj l l') by congruence. reflexivity.
Qed.
Lemma schedule_unique M M' W W' : (forall t, (t < 16)%nat -> M t = M' t) -> schedule_256 M W -> schedule_256 M' W' ->
  forall t, (t < 64)%nat -> W t = W' t.
Proof.
  intros E [A B] [A' B'] t. induction t as [t IH] using lt_wf_ind. intros T. destruct (Nat.lt_ge_cases t 16) as [L|L].
  - rewrite A, A' by exact L. now apply E.
  - rewrite B, B' by lia. rewrite !IH by lia. reflexivity.
Qed.
Lemma block_unique K K' M M' H H' G G' : (forall t, (t < 64)%nat -> K t = K' t) -> (forall t, (t < 16)%nat -> M t = M' t) ->
  (forall j, (j < 8)%nat -> H j = H' j) -> block_256 K M H G -> block_256 K' M' H' G' -> forall j, (j < 8)%nat -> G j = G' j.
Proof.
  intros EK EM EH (W & V & SW & V0 & VT & VG) (W' & V' & SW' & V0' & VT' & VG') j J.
  assert (E : forall t, (t <= 64)%nat -> forall j, (j < 8)%nat -> V t j = V' t j).
  { induction t as [|t IH]; intros T i I.
    - rewrite V0, V0' by exact I. now apply EH.
    - specialize (VT t ltac:(lia)). specialize (VT' t ltac:(lia)). unfold turn_256 in VT, VT'. cbv zeta in VT, VT'.
      specialize (IH ltac:(lia)). rewrite <- (EK t), <- (schedule_unique M M' W W' EM SW SW' t) in VT' by lia. rewrite <- !IH in VT' by lia.
      destruct VT as (A7 & A6 & A5 & A4 & A3 & A2 & A1 & A0). destruct VT' as (B7 & B6 & B5 & B4 & B3 & B2 & B1 & B0).
      do 8 (destruct i as [|i]; [congruence|]). lia. }
  rewrite VG, VG' by exact J. rewrite (E 64%nat), (EH j) by lia. reflexivity.
Qed.
Lemma sha256_unique m d d' : is_SHA256 m d -> is_SHA256 m d' -> d = d'.
Proof.
  intros (K & p & N & H & CK & P & LP & I0 & HB & Ld & Od) (K' & p' & N' & H' & CK' & P' & LP' & I0' & HB' & Ld' & Od').
  rewrite <- (padded_unique m p p' P P') in *. replace N' with N in * by lia.
  assert (EK : forall t, (t < 64)%nat -> K t = K' t).
  { intros t T. destruct (CK t T) as (q & Pq & Rq). destruct (CK' t T) as (q' & Pq' & Rq').
    rewrite <- (prime_number_unique t q q' Pq Pq') in Rq'. now apply (root_fraction_unique 3 q). }
  assert (E : forall i, (i <= N)%nat -> forall j, (j < 8)%nat -> H i j = H' i j).
  { induction i as [|i IH]; intros I.
    - intros j J. destruct (I0 j J) as (q & Pq & Rq). destruct (I0' j J) as (q' & Pq' & Rq').
      rewrite <- (prime_number_unique j q q' Pq Pq') in Rq'. now apply (root_fraction_unique 2 q).
    - apply (block_unique K K' _ _ (H i) (H' i) _ _ EK (fun t _ => eq_refl) (IH ltac:(lia)) (HB i ltac:(lia)) (HB' i ltac:(lia))). }
  apply (pieces_inj 32 8); [exact Ld|exact Ld'|]. intros j J. apply number_inj.
  - unfold piece. rewrite !firstn_length, !skipn_length, Ld, Ld'. reflexivity.
  - rewrite Od, Od' by exact J. now apply E.
Qed.
Lemma sha256_iff m : wf_bytes m -> 8 * Z.of_nat (length m) < 2 ^ 64 ->
  exists d, HashesSha_256 m = Ok d /\ wf_bytes d /\ length d = 32%nat /\ forall D, is_SHA256 (msb_bits m) D <-> D = msb_bits d.
Proof.
  intros W B. destruct (sha256_bits m W B) as (d & E & Wd & Ld & I). exists d. repeat split; try assumption.
  - intros I'. now apply (sha256_unique (msb_bits m)).
  - intros ->. exact I.
Qed.
