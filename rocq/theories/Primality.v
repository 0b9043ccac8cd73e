(** Fermat's little theorem, Pocklington's criterion, and the primality of the field size
    p = 2^255 - 19 and of the group order q = 2^252 + 27742317777372353535851937790883648493. *)
From Coq Require Import List ZArith Lia Bool Znumtheory Permutation Wf_Z Zpow_facts.
Import ListNotations.
Open Scope Z_scope.

Lemma prime_rel p a : prime p -> ~ (p | a) -> rel_prime a p.
Proof.
  intros Hp Ha. apply rel_prime_sym. apply prime_rel_prime; assumption.
Qed.
Lemma divide_prime p a b : prime p -> (p | a * b) -> (p | a) \/ (p | b).
Proof. intros Hp. apply prime_mult, Hp. Qed.
Lemma mod_div a p : p <> 0 -> (a mod p = 0 <-> (p | a)).
Proof. intros H. apply Z.mod_divide, H. Qed.
Lemma mod_eq_div a b p : p <> 0 -> (a mod p = b mod p <-> (p | a - b)).
Proof.
  intros H. rewrite <- mod_div by exact H. split; intros E.
  - rewrite Zminus_mod, E, Z.sub_diag. apply Z.mod_0_l, H.
  - pose proof (Z.div_mod (a - b) p H) as D. rewrite E in D.
    replace a with (b + ((a - b) / p) * p) by lia. apply Z.mod_add, H.
Qed.

(** ** Fermat *)
Definition residues (p : Z) : list Z := map Z.of_nat (seq 1 (Z.to_nat p - 1)).
Definition zprod (l : list Z) : Z := fold_right Z.mul 1 l.

Lemma residues_in p x : 1 < p -> (In x (residues p) <-> 1 <= x < p).
Proof.
  intros Hp. unfold residues. rewrite in_map_iff. split.
  - intros (n & <- & Hn). apply in_seq in Hn. lia.
  - intros Hx. exists (Z.to_nat x). split; [lia|]. apply in_seq. lia.
Qed.
Lemma residues_nodup p : NoDup (residues p).
Proof.
  unfold residues. apply FinFun.Injective_map_NoDup; [|apply seq_NoDup].
  intros a b H. lia.
Qed.
Lemma zprod_perm a b : Permutation a b -> zprod a = zprod b.
Proof. unfold zprod. induction 1; cbn [fold_right]; [reflexivity|congruence|ring|congruence]. Qed.
Lemma zprod_ndiv p l : prime p -> (forall x, In x l -> ~ (p | x)) -> ~ (p | zprod l).
Proof.
  intros Hp. induction l as [|x l IH]; intros H; cbn [zprod fold_right].
  - intros D. destruct Hp as [Hp _]. apply Z.divide_1_r_nonneg in D; lia.
  - intros D. destruct (divide_prime _ _ _ Hp D) as [D'|D']; clear D; rename D' into D.
    + apply (H x); [left; reflexivity|exact D].
    + revert D. apply IH. intros y Hy. apply H. right. exact Hy.
Qed.
Lemma zprod_map_mod p a l : p <> 0 ->
  zprod (map (fun x => (a * x) mod p) l) mod p = (a ^ Z.of_nat (length l) * zprod l) mod p.
Proof.
  intros Hp. induction l as [|x l IH]; cbn [map zprod fold_right length]; [reflexivity|].
  fold (zprod (map (fun x => (a * x) mod p) l)). fold (zprod l).
  rewrite Nat2Z.inj_succ, Z.pow_succ_r by lia.
  rewrite Z.mul_mod, IH, Z.mod_mod by exact Hp. rewrite <- Z.mul_mod by exact Hp.
  f_equal. ring.
Qed.

Lemma nodup_map {A B} (f : A -> B) l :
  (forall x y, In x l -> In y l -> f x = f y -> x = y) -> NoDup l -> NoDup (map f l).
Proof.
  intros H N. induction N as [|x l Hx N IH]; cbn [map]; constructor.
  - intros C. apply in_map_iff in C as (y & E & Hy). apply H in E; [|right; exact Hy|left; reflexivity].
    subst. contradiction.
  - apply IH. intros a b Ha Hb. apply H; right; assumption.
Qed.

Theorem fermat p a : prime p -> ~ (p | a) -> a ^ (p - 1) mod p = 1.
Proof.
  intros Hp Ha. assert (P1 : 1 < p) by (destruct Hp; lia).
  set (f := fun x => (a * x) mod p).
  assert (Perm : Permutation (map f (residues p)) (residues p)).
  { apply NoDup_Permutation_bis.
    - apply nodup_map; [|apply residues_nodup].
      intros x y Hx Hy E. apply residues_in in Hx, Hy; [|lia|lia].
      unfold f in E. apply mod_eq_div in E; [|lia].
      replace (a * x - a * y) with (a * (x - y)) in E by ring.
      apply divide_prime in E as [E|E]; [contradiction| |exact Hp].
      destruct E as [k E]. assert (k = 0) by nia. lia.
    - rewrite map_length. lia.
    - intros y Hy. apply in_map_iff in Hy as (x & <- & Hx). apply residues_in in Hx; [|lia].
      apply residues_in; [lia|]. unfold f.
      pose proof (Z.mod_pos_bound (a * x) p ltac:(lia)).
      assert ((a * x) mod p <> 0); [|lia].
      intros E. apply mod_div in E; [|lia]. apply divide_prime in E as [E|E]; [contradiction| |exact Hp].
      apply Z.divide_pos_le in E; lia. }
  apply zprod_perm in Perm.
  pose proof (zprod_map_mod p a (residues p) ltac:(lia)) as M. fold f in M. rewrite Perm in M.
  symmetry in M. apply mod_eq_div in M; [|lia].
  assert (L : Z.of_nat (length (residues p)) = p - 1)
    by (unfold residues; rewrite map_length, seq_length; lia).
  rewrite L in M.
  replace (a ^ (p - 1) * zprod (residues p) - zprod (residues p))
    with ((a ^ (p - 1) - 1) * zprod (residues p)) in M by ring.
  apply divide_prime in M as [M|M]; [|exfalso|exact Hp].
  - transitivity (1 mod p); [|apply Z.mod_small; lia]. apply mod_eq_div; [lia|exact M].
  - revert M. apply zprod_ndiv; [exact Hp|]. intros x Hx D. apply residues_in in Hx; [|lia].
    apply Z.divide_pos_le in D; lia.
Qed.

(** ** modular exponentiation *)
Fixpoint powmod (a : Z) (n : positive) (m : Z) : Z :=
  match n with
  | xH => a mod m
  | xO k => let r := powmod a k m in (r * r) mod m
  | xI k => let r := powmod a k m in (((r * r) mod m) * a) mod m
  end.
Lemma powmod_ok a n m : m <> 0 -> powmod a n m = a ^ Zpos n mod m.
Proof.
  intros Hm. induction n as [n IH|n IH|]; cbn [powmod].
  - rewrite IH. rewrite Pos2Z.inj_xI.
    replace (2 * Z.pos n + 1) with (Z.pos n + Z.pos n + 1) by lia.
    rewrite !Z.pow_add_r, Z.pow_1_r by lia.
    rewrite <- Z.mul_mod by exact Hm. rewrite Z.mul_mod_idemp_l by exact Hm. reflexivity.
  - rewrite IH. rewrite Pos2Z.inj_xO. replace (2 * Z.pos n) with (Z.pos n + Z.pos n) by lia.
    rewrite Z.pow_add_r by lia. rewrite <- Z.mul_mod by exact Hm. reflexivity.
  - rewrite Z.pow_1_r. reflexivity.
Qed.

(** ** Pocklington *)
Lemma prime_divisor n : 1 < n -> exists l, prime l /\ (l | n).
Proof.
  intros Hn. assert (N0 : 0 <= n) by lia. revert Hn.
  apply (Z_lt_induction (fun n => 1 < n -> exists l, prime l /\ (l | n))); [|exact N0].
  clear n N0. intros n IH Hn.
  destruct (prime_dec n) as [P|P]; [exists n; split; [exact P|apply Z.divide_refl]|].
  apply not_prime_divide in P as (d & Hd & D); [|exact Hn].
  destruct (IH d) as (l & Hl & Dl); [lia|lia|].
  exists l. split; [exact Hl|]. eapply Z.divide_trans; eassumption.
Qed.
Lemma small_prime_divisor n : 1 < n -> ~ prime n -> exists l, prime l /\ (l | n) /\ l * l <= n.
Proof.
  intros Hn P. apply not_prime_divide in P as (d & Hd & D); [|exact Hn].
  destruct D as [e D].
  assert (1 < e < n) by nia.
  destruct (Z.le_ge_cases d e) as [L|L].
  - destruct (prime_divisor d) as (l & Hl & Dl); [lia|]. exists l. split; [exact Hl|].
    assert (l <= d) by (apply Z.divide_pos_le; [lia|exact Dl]). destruct Hl as [Hl _].
    split; [rewrite D; apply Z.divide_mul_r, Dl|nia].
  - destruct (prime_divisor e) as (l & Hl & Dl); [lia|]. exists l. split; [exact Hl|].
    assert (l <= e) by (apply Z.divide_pos_le; [lia|exact Dl]). destruct Hl as [Hl _].
    split; [rewrite D; apply Z.divide_mul_l, Dl|nia].
Qed.

Lemma pow_mod1 b n k : 1 < n -> 0 <= k -> b mod n = 1 -> b ^ k mod n = 1.
Proof.
  intros Hn Hk H. rewrite <- (Z2Nat.id k) by exact Hk.
  induction (Z.to_nat k) as [|m IH]; [apply Z.mod_small; lia|].
  rewrite Nat2Z.inj_succ, Z.pow_succ_r by lia.
  rewrite Z.mul_mod, H, IH by lia. apply Z.mod_small. lia.
Qed.

(** if b^f = 1 and b <> 1 modulo the prime l, then the prime f divides l - 1 *)
Lemma order_divides l f b : prime l -> prime f -> 0 < f ->
  b ^ f mod l = 1 -> b mod l <> 1 -> (f | l - 1).
Proof.
  intros Hl Hf F0 H1 H2. assert (L1 : 1 < l) by (destruct Hl; lia).
  destruct (Zdivide_dec f (l - 1)) as [D|ND]; [exact D|exfalso].
  assert (Hb : ~ (l | b)).
  { intros D. assert ((l | b ^ f)).
    { replace f with (Z.succ (f - 1)) by lia. rewrite Z.pow_succ_r by lia.
      apply Z.divide_mul_l, D. }
    apply mod_div in H; lia. }
  pose proof (fermat l b Hl Hb) as Fm.
  assert (R : rel_prime f (l - 1)) by (apply prime_rel_prime; assumption).
  apply rel_prime_bezout in R. destruct R as [u v E].
  (* u f + v (l-1) = 1; shift u to be nonnegative and v nonpositive *)
  set (t := Z.abs u + Z.abs v).
  set (u' := u + t * (l - 1)). set (v' := t * f - v).
  assert (E' : u' * f = 1 + v' * (l - 1)) by (unfold u', v'; transitivity (u * f + v * (l - 1) + t * f * (l - 1) - v * (l - 1)); [ring|rewrite E; ring]).
  assert (T : 0 <= t /\ - t <= u /\ v <= t) by (unfold t; lia).
  assert (T1 : t * 1 <= t * (l - 1)) by (apply Z.mul_le_mono_nonneg_l; lia).
  assert (T2 : t * 1 <= t * f) by (apply Z.mul_le_mono_nonneg_l; lia).
  assert (U : 0 <= u') by (unfold u'; lia).
  assert (V : 0 <= v') by (unfold v'; lia).
  clearbody u' v'. clear E T T1 T2 t u v.
  assert (A : b ^ (u' * f) mod l = 1).
  { rewrite Z.mul_comm, Z.pow_mul_r by lia. apply pow_mod1; assumption. }
  rewrite E', Z.pow_add_r, Z.pow_1_r in A by nia.
  rewrite (Z.mul_comm v'), Z.pow_mul_r in A by lia.
  rewrite Z.mul_mod, (pow_mod1 (b ^ (l - 1))), Z.mul_1_r, Z.mod_mod in A by lia.
  contradiction.
Qed.

Definition pock_ok (N f a : Z) : Prop :=
  exists e, 0 < f /\ N - 1 = e * f /\ 0 < e /\ a ^ (N - 1) mod N = 1 /\ rel_prime (a ^ e - 1) N.

Lemma mod_divides a b m : (m | b) -> 0 < m -> 0 < b -> a mod b = 1 -> 1 < m -> a mod m = 1.
Proof.
  intros D Hm Hb H M1. assert (E : a mod b = 1 mod b) by (rewrite (Z.mod_small 1); [exact H|]; apply Z.divide_pos_le in D; lia).
  apply mod_eq_div in E; [|lia]. rewrite <- (Z.mod_small 1 m) by lia. apply mod_eq_div; [lia|].
  eapply Z.divide_trans; eassumption.
Qed.

Lemma pock_divides N f a l : prime f -> pock_ok N f a -> prime l -> (l | N) -> 1 < N -> (f | l - 1).
Proof.
  intros Hf (e & F0 & E & E0 & H1 & R) Hl D N1. assert (L1 : 1 < l) by (destruct Hl; lia).
  apply order_divides with (a ^ e); try assumption.
  - rewrite <- Z.pow_mul_r by lia. rewrite <- E. eapply mod_divides; try eassumption; lia.
  - intros C. rewrite <- (Z.mod_small 1 l) in C by lia. apply mod_eq_div in C; [|lia].
    apply rel_prime_bezout in R. destruct R as [u v B].
    assert (l | 1).
    { rewrite <- B. apply Z.divide_add_r; apply Z.divide_mul_r; assumption. }
    apply Z.divide_1_r_nonneg in H; lia.
Qed.

Theorem pocklington1 N f a : 1 < N -> prime f -> pock_ok N f a -> N < f * f -> prime N.
Proof.
  intros N1 Hf H L. destruct (prime_dec N) as [P|P]; [exact P|exfalso].
  destruct (small_prime_divisor N N1 P) as (l & Hl & D & S).
  pose proof (pock_divides N f a l Hf H Hl D N1) as Df.
  assert (1 < l) by (destruct Hl; lia).
  apply Z.divide_pos_le in Df; [|lia]. assert (1 < f) by (destruct Hf; lia). nia.
Qed.
Theorem pocklington2 N f g a : 1 < N -> prime f -> prime g -> f <> g ->
  pock_ok N f a -> pock_ok N g a -> N < (f * g) * (f * g) -> prime N.
Proof.
  intros N1 Hf Hg Ne H1 H2 L. destruct (prime_dec N) as [P|P]; [exact P|exfalso].
  destruct (small_prime_divisor N N1 P) as (l & Hl & D & S).
  pose proof (pock_divides N f a l Hf H1 Hl D N1) as Df.
  pose proof (pock_divides N g a l Hg H2 Hl D N1) as Dg.
  assert (L1 : 1 < l) by (destruct Hl; lia).
  assert (R : rel_prime f g).
  { apply prime_rel_prime; [exact Hf|]. intros C. apply prime_div_prime in C; try assumption. contradiction. }
  assert (Dfg : (f * g | l - 1)).
  { destruct Dg as [k Dg]. rewrite Dg in Df. rewrite Z.mul_comm in Df.
    apply Gauss in Df; [|exact R]. destruct Df as [j Dj]. exists j. rewrite Dg, Dj. ring. }
  apply Z.divide_pos_le in Dfg; [|lia].
  assert (1 < f) by (destruct Hf; lia). assert (1 < g) by (destruct Hg; lia). nia.
Qed.

(** boolean certificate check: f * e = N - 1, w = a^e mod N, w^f = 1, gcd (w - 1) N = 1 *)
Definition pock_check (N : Z) (f e : positive) (a : Z) : bool :=
  (1 <? N) && (Zpos e * Zpos f =? N - 1) &&
  let w := powmod a e N in (powmod w f N =? 1) && (Z.gcd (w - 1) N =? 1).
Lemma pock_check_ok N f e a : pock_check N f e a = true -> pock_ok N (Zpos f) a /\ 1 < N.
Proof.
  unfold pock_check. intros H. apply andb_prop in H as [H H3]. apply andb_prop in H as [H1 H2].
  apply andb_prop in H3 as [H3 H4].
  apply Z.ltb_lt in H1. apply Z.eqb_eq in H2, H3, H4. split; [|exact H1].
  rewrite !powmod_ok in * by lia.
  exists (Zpos e). split; [lia|]. split; [lia|]. split; [lia|]. split.
  - rewrite <- H2, Z.pow_mul_r by lia. rewrite <- H3. rewrite <- Zpower_mod by lia. reflexivity.
  - apply Zgcd_1_rel_prime. transitivity (Z.gcd (a ^ Z.pos e mod N - 1) N); [|exact H4].
    rewrite (Z.gcd_comm (a ^ Z.pos e - 1)), (Z.gcd_comm (a ^ Z.pos e mod N - 1)).
    rewrite <- (Z.gcd_mod (a ^ Z.pos e - 1)) by lia.
    rewrite <- (Z.gcd_mod (a ^ Z.pos e mod N - 1)) by lia.
    rewrite Zminus_mod_idemp_l. reflexivity.
Qed.

(** ** small primes by trial division *)
Fixpoint trial (n d : Z) (fuel : nat) : bool :=
  match fuel with
  | O => n <? d * d
  | S k => if n mod d =? 0 then false else trial n (d + 1) k
  end.
Lemma trial_ok n fuel : forall d, trial n d fuel = true -> 
  (forall e, d <= e -> e * e <= n -> ~ (e | n)) \/ n <= 0 \/ d <= 0.
Proof.
  induction fuel as [|k IH]; intros d H; cbn [trial] in H.
  - apply Z.ltb_lt in H. destruct (Z.le_gt_cases d 0); [tauto|]. left. intros e He Hn. nia.
  - destruct (n mod d =? 0) eqn:E; [discriminate|]. apply Z.eqb_neq in E.
    destruct (Z.le_gt_cases d 0); [tauto|].
    apply IH in H as [H|[H|H]]; [|tauto|lia]. left. intros e He Hn.
    destruct (Z.eq_dec d e) as [<-|N]; [|apply H; lia].
    intros D. apply E. apply mod_div; [lia|exact D].
Qed.
Lemma trial_prime n fuel : 1 < n -> trial n 2 fuel = true -> prime n.
Proof.
  intros Hn H. destruct (prime_dec n) as [P|P]; [exact P|exfalso].
  destruct (small_prime_divisor n Hn P) as (l & Hl & D & S).
  apply trial_ok in H as [H|H]; [|lia]. apply (H l); try assumption. destruct Hl; lia.
Qed.

(** ** the chains *)
Ltac trial_p := apply (trial_prime _ 3000); [lia|]; vm_compute; reflexivity.
Lemma prime_127 : prime 127. Proof. apply (trial_prime _ 20); [lia|reflexivity]. Qed.
Lemma prime_75707 : prime 75707. Proof. apply (trial_prime _ 300); [lia|vm_compute; reflexivity]. Qed.
Lemma prime_57467 : prime 57467. Proof. apply (trial_prime _ 300); [lia|vm_compute; reflexivity]. Qed.
Lemma prime_8574133 : prime 8574133. Proof. apply (trial_prime _ 3000); [lia|vm_compute; reflexivity]. Qed.
Lemma prime_531581 : prime 531581. Proof. apply (trial_prime _ 800); [lia|vm_compute; reflexivity]. Qed.
Lemma prime_1224481 : prime 1224481. Proof. apply (trial_prime _ 1200); [lia|vm_compute; reflexivity]. Qed.

Ltac pock1 Hf f e a :=
  let C := fresh "C" in
  match goal with |- prime ?N =>
    assert (C : pock_check N f e a = true) by (vm_compute; reflexivity);
    apply pock_check_ok in C as [C ?]; apply (pocklington1 N (Zpos f) a); [lia|exact Hf|exact C|lia]
  end.
Ltac pock2 Hf f e Hg g e' a :=
  let C := fresh "C" in let D := fresh "D" in
  match goal with |- prime ?N =>
    assert (C : pock_check N f e a = true) by (vm_compute; reflexivity);
    apply pock_check_ok in C as [C ?];
    assert (D : pock_check N g e' a = true) by (vm_compute; reflexivity);
    apply pock_check_ok in D as [D ?];
    apply (pocklington2 N (Zpos f) (Zpos g) a); [lia|exact Hf|exact Hg|lia|exact C|exact D|lia]
  end.

Lemma prime_pA : prime 1919519569386763.
Proof. pock2 prime_8574133 (8574133%positive) (223873314%positive) prime_127 (127%positive) (15114327318006%positive) 2. Qed.
Lemma prime_pB : prime 75445702479781427272750846543864801.
Proof. pock2 prime_pA (1919519569386763%positive) (39304471641247389600%positive) prime_75707 (75707%positive) (996548568557483816196003626400%positive) 2. Qed.
Lemma prime_pC : prime 74058212732561358302231226437062788676166966415465897661863160754340907.
Proof. pock2 prime_pB (75445702479781427272750846543864801%positive) (981609426360740691344999861639072106%positive) prime_57467 (57467%positive) (1288708523719027586305727224964984924846728842909250485702458119518%positive) 2. Qed.
Lemma prime_p25519 : prime (2 ^ 255 - 19).
Proof. pock1 prime_pC (74058212732561358302231226437062788676166966415465897661863160754340907%positive) (781764%positive) 2. Qed.
Lemma prime_qA : prime 1257559732178653.
Proof. pock2 prime_1224481 (1224481%positive) (1027014492%positive) prime_531581 (531581%positive) (2365697292%positive) 2. Qed.
Lemma prime_qB : prime 4434155615661930479.
Proof. pock1 prime_qA (1257559732178653%positive) (3526%positive) 2. Qed.
Lemma prime_qC : prime 172054593956031949258510691.
Proof. pock1 prime_qB (4434155615661930479%positive) (38802110%positive) 2. Qed.
Lemma prime_qD : prime 19757330305831588566944191468367130476339.
Proof. pock1 prime_qC (172054593956031949258510691%positive) (114831751082918%positive) 2. Qed.
Lemma prime_qE : prime 276602624281642239937218680557139826668747.
Proof. pock1 prime_qD (19757330305831588566944191468367130476339%positive) (14%positive) 2. Qed.
Lemma prime_q25519 : prime (2 ^ 252 + 27742317777372353535851937790883648493).
Proof. pock1 prime_qE (276602624281642239937218680557139826668747%positive) (26163907866482859529727157400808004%positive) 2. Qed.
