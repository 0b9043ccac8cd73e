(** Proofs of the statements in [PropMem]. *)
From Coq Require Import List ZArith Znumtheory Lia Bool Arith.
From Verif Require Import GoBase FieldSpec GroupModel ApiModel ApiSpec MemModel MemSpec MemProofs MemApi MemClients
  Fp Curve Primality BasePoint GroupSpec PointCodec ByteLemmas ApiProofs VerifyProofs PropFieldLemmas PropSigLemmas PropCodecLemmas PropHashLemmas.
Import ListNotations.
Open Scope nat_scope.

(** ** Values of well-formed things *)
Lemma self_holds m s : wf_sl m s -> holds m s (rd m s).
Proof. intros W. split; [exact W|reflexivity]. Qed.
Lemma self_priv m k : wf_priv m k -> holds_priv m k (priv_at m k).
Proof. intros W. split; [apply self_holds; exact W|reflexivity]. Qed.
Lemma self_pair m k : wf_pair m k -> holds_pair m k (pair_at m k).
Proof. intros W. apply has_pair. split; [exact W|reflexivity]. Qed.
Lemma self_sig m g : wf_sig m g -> holds_sig m g (sig_at m g).
Proof. intros W. apply has_sig. split; [exact W|reflexivity]. Qed.
Lemma pair_of_holds m k p : holds_pair m k p -> wf_pair m k /\ pair_at m k = p.
Proof. intros K. apply has_pair in K. destruct K as (W & E). split; [exact W|]. cbn in E. congruence. Qed.
Lemma sig_of_holds m g x : holds_sig m g x -> wf_sig m g /\ sig_at m g = x.
Proof. intros K. apply has_sig in K. destruct K as (W & E). split; [exact W|]. cbn in E. congruence. Qed.
Lemma self_rel m e : Forall (wf_val m) e -> rel m e (map (view m) e).
Proof. intros F. induction F as [|v e W _ IH]; constructor; [split; [exact W|reflexivity]|exact IH]. Qed.
Lemma rel_view m e pe : rel m e pe -> map (view m) e = pe.
Proof. intros K. induction K as [|v p e pe (_ & E) _ IH]; cbn; [reflexivity|]. rewrite E, IH. reflexivity. Qed.

(** ** C57: single calls *)
Lemma effect_of {A X} (p : prog A) m (v : res X) (R R' : A -> X -> mem -> Prop) :
  refines p m v R -> (forall a x m', grows m m' -> R a x m' -> R' a x m') -> effect p m v R'.
Proof.
  intros (Q & G & K) F. destruct (exec p m) as [r m'] eqn:E. exists r, m'. split; [exact E|]. split; [exact Q|].
  split; [exact G|]. cbn [fst snd] in *. destruct r, v; cbn in *; auto.
Qed.
Lemma unchanged m m' : grows m m' -> forall s, wf_sl m s -> wf_sl m' s /\ rd m' s = rd m s.
Proof. intros G s W. split; [exact (grows_wf _ _ _ G W)|exact (grows_rd _ _ _ G W)]. Qed.
Lemma set_other m a i v s : s_arr s <> s_arr a -> rd (snd (exec (set a i v) m)) s = rd m s.
Proof.
  intros NE. unfold set. destruct (i <? s_len a); [|reflexivity]. cbn [exec].
  destruct (cell m (s_arr a) (s_off a + i)) eqn:C; [|reflexivity]. cbn [exec ret snd].
  assert (K : arr (set_cell m (s_arr a) (s_off a + i) v) (s_arr s) = arr m (s_arr s)).
  { unfold cell in C. destruct (arr m (s_arr a)) as [l|] eqn:A; [|discriminate].
    destruct (s_arr a) as [n|n], (s_arr s) as [j|j]; try reflexivity; unfold arr, set_cell; cbn [m_own m_sh];
      (apply set_nth_other; [apply nth_error_Some; cbn in A; rewrite A; discriminate|congruence]). }
  unfold rd, array_of. rewrite K. reflexivity.
Qed.
Lemma independent m m' s a i v : grows m m' -> wf_sl m a -> is_new m s -> rd (snd (exec (set a i v) m')) s = rd m' s.
Proof.
  intros G W (n & E & L). apply set_other. intros X. destruct W as (N & _). rewrite <- X, E in N. apply N.
  cbn. apply nth_error_None. exact L.
Qed.
Section Calls.
Variable H : list bytes -> bytes.
Hypothesis H64 : forall ps, length (H ps) = 64.
Variable G : bytes -> bytes.
Variable E D : bytes -> bytes -> bytes.
Variable spare : nat -> nat.
Lemma mem_derive m k : wf_priv m k ->
  effect (derive H spare k) m (derive_public_key H (priv_at m k))
    (fun s b m' => wf_sl m' s /\ rd m' s = b /\ is_new m s /\ s_cap s = s_len s).
Proof.
  intros W. eapply effect_of; [exact (ref_derive H H64 spare m k _ (self_priv m k W))|].
  intros s b m' _ ((W' & R & N) & C). split; [exact W'|]. split; [exact R|]. split; [exact N|].
  rewrite C, <- R. apply rd_length. exact W'.
Qed.
Lemma mem_new_key_pair m k p :
  (forall x, k = Some x -> wf_priv m x) -> (forall s, p = Some s -> wf_sl m s) ->
  effect (mnew_key_pair H spare k p) m (new_key_pair H (opt_at (priv_at m) k) (opt_at (rd m) p))
    (fun x y m' => wf_pair m' x /\ pair_at m' x = y /\ mp_priv x = k /\
       match p with Some s => mp_pub x = s /\ m' = m | None => is_new m (mp_pub x) /\ s_cap (mp_pub x) = s_len (mp_pub x) end).
Proof.
  intros WK WP.
  assert (K : holds_opt (holds_priv m) k (opt_at (priv_at m) k)) by (destruct k; [exact (self_priv _ _ (WK _ eq_refl))|exact I]).
  assert (P : holds_opt (holds m) p (opt_at (rd m) p)) by (destruct p; [exact (self_holds _ _ (WP _ eq_refl))|exact I]).
  eapply effect_of; [exact (ref_new_key_pair H H64 spare m k _ p _ K P)|].
  intros x y m' _ (A1 & A2 & A3 & A4). apply pair_of_holds in A1. destruct A1 as (W & V).
  split; [exact W|]. split; [exact V|]. split; [exact A2|]. destruct p as [s|].
  - apply A3. reflexivity.
  - destruct (A4 eq_refl) as ((W' & R & N) & C). split; [exact N|]. rewrite C, <- R. apply rd_length. exact W'.
Qed.
Lemma mem_generate m random :
  effect (mgenerate H spare random) m (generate_key_pair H random)
    (fun x y m' => wf_pair m' x /\ pair_at m' x = fst y /\ is_new m (mp_pub x) /\ s_cap (mp_pub x) = s_len (mp_pub x) /\
       exists k, mp_priv x = Some k /\ is_new m (mk_raw k) /\ s_cap (mk_raw k) = s_len (mk_raw k)).
Proof.
  eapply effect_of; [exact (ref_generate H H64 spare m random)|].
  intros x y m' _ (A1 & A2 & A3 & A4). apply pair_of_holds in A1. destruct A1 as (W & V). auto.
Qed.
Lemma mem_sign m kp mess : wf_pair m kp -> wf_sl m mess ->
  effect (msign H spare kp mess) m (sign H (pair_at m kp) (rd m mess))
    (fun g x m' => wf_sig m' g /\ sig_at m' g = x /\ is_new m (mR g) /\ is_new m (mS g) /\ s_arr (mR g) <> s_arr (mS g) /\
       s_cap (mR g) = 32 /\ s_len (mR g) = 32 /\ s_cap (mS g) = 32 /\ s_len (mS g) = 32).
Proof.
  intros W M. eapply effect_of; [exact (ref_sign H H64 spare m kp _ mess _ (self_pair _ _ W) (self_holds _ _ M))|].
  intros g x m' _ (T1 & T2 & ND & L1 & L2).
  assert (S : holds_sig m' g x) by (split; [exact (tight_holds _ _ _ _ T1)|exact (tight_holds _ _ _ _ T2)]).
  pose proof (holds_len _ _ _ (proj1 S)). pose proof (holds_len _ _ _ (proj2 S)).
  apply sig_of_holds in S. destruct S as (WS & ES). destruct T1 as ((_ & _ & N1) & C1), T2 as ((_ & _ & N2) & C2).
  repeat split; try assumption; try (apply WS); lia.
Qed.
Lemma mem_verify m kp mess g : wf_pair m kp -> wf_sl m mess -> wf_sig m g ->
  effect (mverify H spare kp mess g) m (verify H (pair_at m kp) (rd m mess) (sig_at m g)) (fun a b _ => a = b).
Proof.
  intros W M S. eapply effect_of; [exact (ref_verify H spare m kp _ mess _ g _ (self_pair _ _ W) (self_holds _ _ M) (self_sig _ _ S))|].
  intros a b m' _ A. exact A.
Qed.
Lemma mem_make_canonical m g : wf_sig m g ->
  effect (mmake_canonical g) m (make_signature_canonical (sig_at m g))
    (fun h y m' => wf_sig m' h /\ sig_at m' h = y /\ mR h = mR g /\ is_new m (mS h) /\ s_cap (mS h) = s_len (mS h)).
Proof.
  intros W. eapply effect_of; [exact (ref_make_canonical m g _ (self_sig _ _ W))|].
  intros h y m' _ (R & K & ((WS & ES & N) & C)). apply sig_of_holds in K. destruct K as (W' & V).
  split; [exact W'|]. split; [exact V|]. split; [exact R|]. split; [exact N|]. rewrite C, <- ES. apply rd_length. exact WS.
Qed.
Lemma mem_encrypt m s r random inp : wf_pair m s -> wf_pair m r -> wf_sl m inp ->
  effect (mencrypt H G E spare s r random inp) m
    (encrypt H G E (new_block_cipher (pair_at m s) (pair_at m r)) random (rd m inp))
    (fun t y m' => wf_sl m' t /\ rd m' t = fst y /\ is_new m t).
Proof.
  intros W1 W2 WI. eapply effect_of; [exact (ref_encrypt H H64 G E spare m s _ r _ random inp _ (self_pair _ _ W1) (self_pair _ _ W2) (self_holds _ _ WI))|].
  intros t y m' _ A. exact A.
Qed.
Lemma mem_decrypt m s r inp : wf_pair m s -> wf_pair m r -> wf_sl m inp ->
  effect (mdecrypt H G D spare s r inp) m
    (decrypt H G D (new_block_cipher (pair_at m s) (pair_at m r)) (rd m inp))
    (fun t b m' => wf_sl m' t /\ rd m' t = b /\ is_new m t).
Proof.
  intros W1 W2 WI. eapply effect_of; [exact (ref_decrypt H H64 G D spare m s _ r _ inp _ (self_pair _ _ W1) (self_pair _ _ W2) (self_holds _ _ WI))|].
  intros t y m' _ A. exact A.
Qed.

(** ** C56: goroutines *)
Notation do_ops := (do_ops H G E D spare).
Notation calls := (calls H G E D).
Notation tidy := (tidy H G E D spare).
Notation programs := (programs H G E D spare).

Lemma step_exec {A} (p : prog A) m p' m' : pstep p m = Some (p', m') -> exec p' m' = exec p m.
Proof.
  destruct p as [r|a i k|a i v k|n k]; cbn [pstep exec]; intros X; try discriminate; injection X as X.
  - destruct (cell m a i); injection X as <- <-; reflexivity.
  - destruct (cell m a i); injection X as <- <-; reflexivity.
  - subst. reflexivity.
Qed.
Lemma turns_exec {A} k : forall (p : prog A) m, exec (fst (turns k (p, m))) (snd (turns k (p, m))) = exec p m.
Proof.
  induction k as [|k IH]; intros p m; [reflexivity|]. cbn [turns fst snd].
  destruct (pstep p m) as [[p' m']|] eqn:X; [|reflexivity]. rewrite IH. exact (step_exec _ _ _ _ X).
Qed.
Lemma goroutines_calm sh clients :
  (forall e os, In (e, os) clients -> Forall (wf_val (Mem sh [])) e /\ tidy (fun g => no_room g \/ followed g) (Mem sh []) e os) ->
  forall schedule, let c := crun (start sh (programs clients)) schedule in
  c_sh c = sh /\
  forall t e os, nth_error clients t = Some (e, os) -> exists p own, thread c t = Some (p, own) /\
    (forall r, p = Ret r -> agrees (fun e' pe m => map (view m) e' = pe) r (calls (map (view (Mem sh [])) e) os) (Mem sh own)) /\
    (accesses (do_ops e os) (Mem sh []) <= turns_of t schedule -> exists r, p = Ret r).
Proof.
  intros T schedule c.
  assert (RF : forall e os, In (e, os) clients -> refinesc (do_ops e os) (Mem sh []) (calls (map (view (Mem sh [])) e) os) relr).
  { intros e os I. destruct (T e os I) as (W & Y). apply refc_ops; [exact H64|apply self_rel; exact W|exact Y]. }
  assert (F : Forall (fun p => calm p (Mem sh [])) (programs clients)).
  { apply Forall_forall. intros p I. apply in_map_iff in I. destruct I as ((e & os) & <- & I). apply (RF e os I). }
  destruct (interleave sh (programs clients) F schedule) as (S & _ & TH). fold c in S, TH. split; [exact S|].
  intros t e os X. specialize (TH t (do_ops e os)). unfold MemSpec.programs in TH. specialize (TH (map_nth_error _ _ _ X)).
  cbv zeta in TH. unfold thread. rewrite TH. do 2 eexists. split; [reflexivity|].
  set (st := turns (turns_of t schedule) (do_ops e os, Mem sh [])) in *.
  destruct (RF e os (nth_error_In _ _ X)) as (Q & GR & A).
  assert (EX : exec (fst st) (snd st) = exec (do_ops e os) (Mem sh [])) by apply turns_exec.
  destruct (calm_turns (turns_of t schedule) _ _ Q) as (_ & SH). fold st in SH.
  split.
  - intros r R. rewrite R in EX. cbn [exec] in EX. rewrite <- EX in A. cbn [fst snd] in A.
    replace (Mem sh (m_own (snd st))) with (snd st) by (cbn in SH; rewrite <- SH; destruct (snd st); reflexivity).
    destruct r as [e'|x|], (calls (map (view (Mem sh [])) e) os); cbn in A |- *; try exact A. apply rel_view. exact A.
  - intros L. unfold st. rewrite (turns_enough _ _ _ L). cbn [fst]. eexists. reflexivity.
Qed.
Lemma tidy_imp (P Q : msig -> Prop) : (forall g, P g -> Q g) -> forall os m e, tidy P m e os -> tidy Q m e os.
Proof.
  intros PQ. induction os as [|o os IH]; intros m e T; [exact I|]. cbn [MemSpec.tidy] in *. destruct T as (T & N). split.
  - clear N. destruct o; cbn [tidy_op] in *; auto.
  - intros e' m' X. apply IH. exact (N e' m' X).
Qed.
Lemma goroutines sh clients :
  (forall e os, In (e, os) clients -> Forall (wf_val (Mem sh [])) e /\ tidy no_room (Mem sh []) e os) ->
  forall schedule, let c := crun (start sh (programs clients)) schedule in
  c_sh c = sh /\
  forall t e os, nth_error clients t = Some (e, os) -> exists p own, thread c t = Some (p, own) /\
    (forall n i v k, p <> Put (Sh n) i v k) /\
    (forall r, p = Ret r -> agrees (fun e' pe m => map (view m) e' = pe) r (calls (map (view (Mem sh [])) e) os) (Mem sh own)) /\
    (accesses (do_ops e os) (Mem sh []) <= turns_of t schedule -> exists r, p = Ret r).
Proof.
  intros T schedule c.
  assert (T' : forall e os, In (e, os) clients -> Forall (wf_val (Mem sh [])) e /\ tidy (fun g => no_room g \/ followed g) (Mem sh []) e os).
  { intros e os I. destruct (T e os I) as (W & Y). split; [exact W|]. revert Y. apply tidy_imp. auto. }
  destruct (goroutines_calm sh clients T' schedule) as (S & TH). fold c in S, TH. split; [exact S|].
  intros t e os X. destruct (TH t e os X) as (p & own & P & R1 & R2). exists p, own. split; [exact P|]. split; [|auto].
  (* the next access is not a write to shared memory *)
  intros n i v k ->.
  assert (RF : forall e os, In (e, os) clients -> quiet (do_ops e os) (Mem sh [])).
  { intros e1 os1 I. destruct (T e1 os1 I) as (W & Y). exact (proj1 (ref_ops H H64 G E D spare os1 _ _ _ (self_rel _ _ W) Y)). }
  assert (F : Forall (fun p => calm p (Mem sh [])) (programs clients)).
  { apply Forall_forall. intros p I. apply in_map_iff in I. destruct I as ((e1 & os1) & <- & I). apply quiet_calm. exact (RF e1 os1 I). }
  destruct (interleave sh (programs clients) F schedule) as (_ & _ & TT). fold c in TT.
  specialize (TT t (do_ops e os)). unfold MemSpec.programs in TT. specialize (TT (map_nth_error _ _ _ X)). cbv zeta in TT.
  unfold thread in P. rewrite TT in P. injection P as P _.
  pose proof (quiet_turns (turns_of t schedule) _ _ (RF e os (nth_error_In _ _ X))) as Q.
  rewrite P in Q. destruct Q as (Q & _). exact (Q n eq_refl).
Qed.
Lemma plain_tidy good os : forallb plain os = true -> forall m e, tidy good m e os.
Proof.
  induction os as [|o os IH]; intros P m e; [exact I|]. cbn in P. apply andb_true_iff in P. destruct P as (P & Q).
  cbn [MemSpec.tidy]. split; [destruct o; cbn in *; try discriminate; exact I|]. intros e' m' _. apply IH. exact Q.
Qed.
End Calls.

(** ** C58: Bytes of a shared signature *)
Lemma quiet_bind_inv {A B} (p : prog A) (f : A -> prog B) : forall m, quiet (bindp p f) m ->
  forall a m', exec p m = (Ok a, m') -> quiet (f a) m'.
Proof.
  induction p as [r|a i k IH|a i v k IH|n k IH]; intros m Q x m' X; cbn [bindp quiet exec] in *.
  - injection X as -> ->. exact Q.
  - destruct (cell m a i); [exact (IH _ _ Q _ _ X)|discriminate X].
  - destruct Q as (_ & Q). destruct (cell m a i); [exact (IH _ Q _ _ X)|discriminate X].
  - exact (IH _ _ Q _ _ X).
Qed.
Lemma bytes_quiet_iff spare m g : wf_sig m g -> (exists n, s_arr (mR g) = Sh n) -> 0 < s_len (mS g) ->
  (quiet (mbytes spare g) m <-> no_room g).
Proof.
  intros W (n & EA) L. split.
  - intros Q. unfold no_room. destruct (Nat.lt_ge_cases (s_cap (mR g)) (s_len (mR g) + s_len (mS g))) as [K|K]; [exact K|exfalso].
    unfold mbytes, go_append in Q. replace (s_len (mR g) + s_len (mS g) <=? s_cap (mR g)) with true in Q by (symmetry; apply Nat.leb_le; exact K).
    destruct (read_ok m (mS g) (proj2 W)) as (Er & _). pose proof (quiet_bind_inv _ _ _ Q _ _ Er) as Q1. cbv beta in Q1.
    pose proof (rd_length m (mS g) (proj2 W)) as LR. destruct (rd m (mS g)) as [|v d]; [cbn in LR; lia|].
    cbn [write_from quiet] in Q1. destruct Q1 as (Q1 & _). exact (Q1 n EA).
  - intros K. exact (proj1 (append_fresh spare m (mR g) _ (mS g) _ (self_holds _ _ (proj1 W)) (self_holds _ _ (proj2 W)) K)).
Qed.
Lemma from_bytes_shape m b g m' : wf_sl m b -> exec (mnew_signature_from_bytes b) m = (Ok g, m') ->
  m' = m /\ s_len b = 64 /\ g = MSig (SL (s_arr b) (s_off b) 32 (s_cap b)) (SL (s_arr b) (s_off b + 32) 32 (s_cap b - 32)) /\
  wf_sig m g.
Proof.
  intros (N & L1 & L2) X. unfold mnew_signature_from_bytes in X.
  destruct (Nat.ltb_spec (s_len b) 64) as [L|L]; [discriminate|].
  unfold reslice in X. replace (32 <=? s_cap b) with true in X by (symmetry; apply Nat.leb_le; lia).
  replace (32 <=? s_len b) with true in X by (symmetry; apply Nat.leb_le; lia).
  replace (s_len b <=? s_cap b) with true in X by (symmetry; apply Nat.leb_le; lia).
  cbn [Nat.leb andb lift bindp] in X. unfold mnew_signature in X. cbn [s_len] in X. rewrite Nat.sub_0_r in X. cbn [Nat.eqb negb orb] in X.
  destruct (Nat.eqb_spec (s_len b - 32) 32) as [L3|L3]; [|discriminate X]. cbn [negb exec ret] in X.
  rewrite Nat.add_0_r, Nat.sub_0_r, L3 in X. injection X as <- <-. split; [reflexivity|]. split; [lia|]. split; [reflexivity|].
  unfold wf_sig, wf_sl. cbn [mR mS s_arr s_off s_len s_cap]. split; (split; [exact N|lia]).
Qed.
Lemma decoded_writes spare m b g m' : wf_sl m b -> (exists n, s_arr b = Sh n) ->
  exec (mnew_signature_from_bytes b) m = (Ok g, m') -> ~ quiet (mbytes spare g) m /\ calm (mbytes spare g) m.
Proof.
  intros W (n & EA) X. destruct (from_bytes_shape m b g m' W X) as (-> & L & EG & WG). split.
  - intros Q. apply bytes_quiet_iff in Q; [|exact WG|exists n; rewrite EG; exact EA|rewrite EG; cbn; lia].
    unfold no_room in Q. rewrite EG in Q. cbn in Q. destruct W as (_ & W & _). lia.
  - apply (refc_bytes spare m g _ (self_sig m g WG)). right. rewrite EG. unfold followed. cbn [mR mS s_arr s_off s_len]. auto.
Qed.
Lemma write_any {A} (k : prog A) a : forall d m i l, arr m a = Some l -> i + length d <= length l ->
  exists m', arr m' a = Some (over l i d) /\ (forall a', a' <> a -> arr m' a' = arr m a') /\
    exec (write_from a i d k) m = exec k m'.
Proof.
  induction d as [|v d IH]; intros m i l EA L.
  - exists m. unfold over. cbn [length app write_from]. rewrite Nat.add_0_r, firstn_skipn. auto.
  - cbn [length] in L. destruct (nth_error_lt l i) as (x & X); [lia|].
    assert (C : cell m a i = Some x) by (unfold cell; rewrite EA; exact X).
    assert (A1 : arr (set_cell m a i v) a = Some (set_nth l i v)).
    { destruct a as [n|n]; cbn in EA; unfold arr, set_cell; cbn [m_sh m_own];
        (assert (LN : n < length (m_sh m) \/ n < length (m_own m)) by (first [left; apply nth_error_Some; rewrite EA; discriminate|right; apply nth_error_Some; rewrite EA; discriminate])).
      - assert (NL : @nth bytes n (m_sh m) [] = l) by (apply nth_error_nth; exact EA). rewrite NL. apply set_nth_same. apply nth_error_Some. rewrite EA. discriminate.
      - assert (NL : @nth bytes n (m_own m) [] = l) by (apply nth_error_nth; exact EA). rewrite NL. apply set_nth_same. apply nth_error_Some. rewrite EA. discriminate. }
    assert (O1 : forall a', a' <> a -> arr (set_cell m a i v) a' = arr m a').
    { intros a' NE. destruct a as [n|n], a' as [j|j]; try reflexivity; unfold arr, set_cell; cbn [m_own m_sh];
      (apply set_nth_other; [apply nth_error_Some; cbn in EA; rewrite EA; discriminate|congruence]). }
    destruct (IH (set_cell m a i v) (S i) (set_nth l i v) A1) as (m' & A' & O' & E'); [rewrite set_nth_length; lia|].
    exists m'. rewrite over_cons in A' by lia. split; [exact A'|]. split; [intros a' NE; rewrite O', O1 by exact NE; reflexivity|].
    cbn [write_from exec]. rewrite C. exact E'.
Qed.
Section Trap.
Variable H : list bytes -> bytes.
Variable G : bytes -> bytes.
Variable E D : bytes -> bytes -> bytes.
Variable spare : nat -> nat.
Notation do_ops := (do_ops H G E D spare).
Lemma trap_run sh b g : wf_sl (Mem sh []) b -> wf_bytes (rd (Mem sh []) b) ->
  exec (mnew_signature_from_bytes b) (Mem sh []) = (Ok g, Mem sh []) ->
  exists e' m2, exec (do_ops [VSig g] [OMakeCanonical 0; OBytes 1]) (Mem sh []) = (Ok e', m2) /\
    rd m2 b = firstn 32 (rd (Mem sh []) b) ++ le_bytes 32 (le_val (skipn 32 (rd (Mem sh []) b)) mod q25519) /\
    forall s, wf_sl (Mem sh []) s -> s_arr s <> s_arr b -> rd m2 s = rd (Mem sh []) s.
Proof.
  intros W Wb X. set (m := Mem sh []) in *.
  destruct (from_bytes_shape m b g _ W X) as (_ & L & EG & WG).
  assert (RB : rd m b = rd m (mR g) ++ rd m (mS g)).
  { rewrite EG. unfold rd. cbn [mR mS s_arr s_off s_len]. rewrite L. change 64 with (32 + 32). rewrite firstn_add. f_equal. f_equal. symmetry. apply skipn_add. }
  pose proof (rd_length m (mR g) (proj1 WG)) as LR. rewrite EG in LR at 2. cbn [mR s_len] in LR.
  pose proof (rd_length m (mS g) (proj2 WG)) as LS. rewrite EG in LS at 2. cbn [mS s_len] in LS.
  rewrite RB in Wb |- *. apply Forall_app in Wb. destruct Wb as (_ & WS).
  rewrite firstn_app, LR, Nat.sub_diag, firstn_O, app_nil_r. rewrite (firstn_all2 (rd m (mR g))) by lia.
  rewrite skipn_app, LR, Nat.sub_diag, skipn_all2 by lia. cbn [app skipn].
  set (S' := le_bytes 32 (le_val (rd m (mS g)) mod q25519)).
  pose proof (make_canonical_32 (rd m (mR g)) (rd m (mS g)) WS LR LS) as MC. fold S' in MC.
  destruct (ref_make_canonical m g _ (self_sig m g WG)) as (_ & G1 & A1). change (sig_at m g) with (Sig (rd m (mR g)) (rd m (mS g))) in A1.
  rewrite MC in A1. destruct (exec (mmake_canonical g) m) as [r1 m1] eqn:E1. cbn [fst snd] in *.
  destruct r1 as [h| |]; try contradiction. destruct A1 as (HR & (KR & KS) & T). cbn [sR sS] in *.
  assert (LS' : s_len (mS h) = 32) by (rewrite (holds_len _ _ _ KS); apply le_bytes_length).
  assert (ER : mR h = SL (s_arr b) (s_off b) 32 (s_cap b)) by (rewrite HR, EG; reflexivity).
  destruct (wf_arr m1 b (grows_wf _ _ _ G1 W)) as (l & B1 & B2 & B3). destruct W as (W1 & W2 & W3).
  destruct (read_ok m1 (mS h) (proj1 KS)) as (Er & _). rewrite (proj2 KS) in Er.
  set (u := SL (s_arr b) (s_off b) 64 (s_cap b)).
  destruct (write_any (ret u) (s_arr b) S' m1 (s_off b + 32) l B1) as (m2 & C1 & C2 & C3); [unfold S'; rewrite le_bytes_length; lia|].
  assert (E2 : exec (mbytes spare h) m1 = (Ok u, m2)).
  { unfold mbytes, go_append. rewrite ER, LS'. cbn [s_len s_cap s_arr s_off].
    replace (32 + 32 <=? s_cap b) with true by (symmetry; apply Nat.leb_le; lia).
    rewrite exec_bind, Er. exact C3. }
  exists [VSig g; VSig h; VSl u], m2. split; [|split].
  - cbn [MemModel.do_ops MemModel.do_op nth_error]. rewrite exec_bind.
    destruct (save_ok VSig [VSig g] (mmake_canonical g) m) as (ES & _). rewrite ES, E1. cbn [fst snd app nth_error].
    rewrite exec_bind. destruct (save_ok VSl [VSig g; VSig h] (mbytes spare h) m1) as (ES2 & _). rewrite ES2, E2. reflexivity.
  - unfold rd at 1. unfold array_of. rewrite C1, L. replace 64 with (32 + length S') by (unfold S'; rewrite le_bytes_length; reflexivity).
    rewrite over_rd by (unfold S'; rewrite le_bytes_length; lia). f_equal.
    rewrite <- (grows_rd _ _ (mR g) G1 (proj1 WG)). rewrite EG. unfold rd. cbn [mR s_arr s_off s_len]. rewrite B2. reflexivity.
  - intros s Ws NE. rewrite <- (grows_rd _ _ s G1 Ws). unfold rd, array_of. rewrite C2 by exact NE. reflexivity.
Qed.
Lemma rd_shared m s : wf_sl (Mem (m_sh m) []) s -> rd (Mem (m_sh m) []) s = rd m s.
Proof.
  intros (N & _). unfold rd, array_of. destruct (s_arr s) as [n|n]; [reflexivity|]. cbn in N. destruct n; contradiction.
Qed.
Lemma schedule_matters sh b g : wf_sl (Mem sh []) b -> wf_bytes (rd (Mem sh []) b) ->
  exec (mnew_signature_from_bytes b) (Mem sh []) = (Ok g, Mem sh []) ->
  exists sh',
    rd (Mem sh' []) b = firstn 32 (rd (Mem sh []) b) ++ le_bytes 32 (le_val (skipn 32 (rd (Mem sh []) b)) mod q25519) /\
    forall reader : prog env, let c := start sh [do_ops [VSig g] [OMakeCanonical 0; OBytes 1]; reader] in
    (exists schedule own, thread (crun c schedule) 1 = Some (Ret (fst (exec reader (Mem sh []))), own)) /\
    (exists schedule own, thread (crun c schedule) 1 = Some (Ret (fst (exec reader (Mem sh' []))), own)).
Proof.
  intros W Wb X. destruct (trap_run sh b g W Wb X) as (e' & m2 & E2 & R2 & _). exists (m_sh m2).
  split.
  - rewrite <- R2. unfold rd, array_of. destruct W as (N & _). destruct (s_arr b) as [n|n]; [reflexivity|]. cbn in N. destruct n; contradiction.
  - intros reader c. split.
    + destruct (run_alone 1 reader c [] eq_refl) as (k & K). cbv zeta in K. change (c_sh c) with sh in K.
      exists (repeat 1 k). rewrite K. eexists. reflexivity.
    + destruct (run_alone 0 (do_ops [VSig g] [OMakeCanonical 0; OBytes 1]) c [] eq_refl) as (k & K). cbv zeta in K. change (c_sh c) with sh in K. rewrite E2 in K. cbn [fst snd] in K.
      set (c1 := crun c (repeat 0 k)) in *.
      assert (T1 : nth_error (c_threads c1) 1 = Some (reader, [])) by (rewrite K; reflexivity).
      destruct (run_alone 1 reader c1 [] T1) as (j & J). cbv zeta in J.
      assert (S1 : c_sh c1 = m_sh m2) by (rewrite K; reflexivity). rewrite S1 in J.
      exists (repeat 0 k ++ repeat 1 j). unfold crun. rewrite fold_left_app. fold (crun c (repeat 0 k)). fold c1. fold (crun c1 (repeat 1 j)).
      rewrite J. unfold thread. cbn [c_threads]. eexists. apply set_nth_same.
      apply nth_error_Some. rewrite T1. discriminate.
Qed.
Lemma canonical_reader m g : wf_sig m g ->
  fst (exec (do_ops [VSig g] [OCanonical 0]) m) = Ok [VSig g; VBool (is_canonical_signature (sig_at m g))].
Proof.
  intros W. cbn [MemModel.do_ops MemModel.do_op nth_error]. rewrite exec_bind.
  destruct (save_ok VBool [VSig g] (mis_canonical g) m) as (ES & _). rewrite ES.
  destruct (ref_is_canonical m g _ (proj2 (self_sig m g W))) as (_ & _ & A). destruct (exec (mis_canonical g) m) as [r m'].
  cbn [fst snd] in *. destruct r as [a| |]; try contradiction. destruct A as (-> & _). reflexivity.
Qed.
End Trap.

(** ** C59: keys share the caller's buffer *)
Lemma set_wf m a i v : wf_sl m a -> i < s_len a ->
  exists m', exec (set a i v) m = (Ok tt, m') /\ rd m' a = firstn i (rd m a) ++ v :: skipn (S i) (rd m a) /\
    forall s, wf_sl m s -> wf_sl m' s.
Proof.
  intros W L. destruct (wf_arr m a W) as (l & A1 & A2 & A3). destruct W as (N & W1 & W2).
  destruct (nth_error_lt l (s_off a + i)) as (x & X); [lia|].
  assert (C : cell m (s_arr a) (s_off a + i) = Some x) by (unfold cell; rewrite A1; exact X).
  destruct (write_any (ret tt) (s_arr a) [v] m (s_off a + i) l A1) as (m' & B1 & B2 & B3); [cbn [length]; lia|].
  assert (OV : over l (s_off a + i) [v] = upd l (s_off a + i) v).
  { unfold over. cbn [length app]. rewrite Nat.add_1_r. rewrite <- set_nth_upd by lia. reflexivity. }
  rewrite OV in B1.
  exists m'. split; [|split].
  - unfold set. replace (i <? s_len a) with true by (symmetry; apply Nat.ltb_lt; exact L).
    exact B3.
  - unfold rd, array_of. rewrite B1, A1, upd_firstn_skipn by lia. apply upd_split. rewrite firstn_length, skipn_length. lia.
  - intros s (Ns & K1 & K2). unfold wf_sl, array_of in *.
    assert (D : {s_arr s = s_arr a} + {s_arr s <> s_arr a}) by (decide equality; apply Nat.eq_dec).
    destruct D as [E|NE].
    + rewrite E in *. rewrite B1. rewrite A1 in K2. rewrite upd_length. split; [discriminate|]. auto.
    + rewrite B2 by exact NE. auto.
Qed.
Lemma private_shares m s pos v k m1 : wf_sl m s -> pos < s_len s -> exec (mnew_private_key s) m = (Ok k, m1) ->
  m1 = m /\ let m2 := snd (exec (set s pos v) m) in
  wf_priv m2 k /\ priv_at m2 k = PrivKey (be_val (rd m s)) (firstn pos (rd m s) ++ v :: skipn (S pos) (rd m s)).
Proof.
  intros W L X. unfold mnew_private_key in X. destruct (read_ok m s W) as (Er & _). rewrite exec_bind, Er in X.
  injection X as <- <-. split; [reflexivity|]. destruct (set_wf m s pos v W L) as (m' & E1 & E2 & E3). rewrite E1. cbn [snd].
  split; [exact (E3 s W)|]. unfold priv_at. cbn [mk_value mk_raw]. rewrite E2. reflexivity.
Qed.
Lemma pair_shares H (H64 : forall ps, length (H ps) = 64) spare m s pos v k kp m2 : wf_sl m s -> pos < s_len s ->
  exec (mnew_private_key s) m = (Ok k, m) -> exec (mnew_key_pair H spare (Some k) None) m = (Ok kp, m2) ->
  exists pub, derive_public_key H (new_private_key (rd m s)) = Ok pub /\
  let m3 := snd (exec (set s pos v) m2) in
  wf_pair m3 kp /\
  pair_at m3 kp = KeyPair (Some (PrivKey (be_val (rd m s)) (firstn pos (rd m s) ++ v :: skipn (S pos) (rd m s)))) pub.
Proof.
  intros W L X Y.
  assert (EK : k = MPriv (be_val (rd m s)) s).
  { unfold mnew_private_key in X. destruct (read_ok m s W) as (Er & _). rewrite exec_bind, Er in X. injection X as <-. reflexivity. }
  assert (WK : wf_priv m k) by (rewrite EK; exact W).
  assert (PA : priv_at m k = new_private_key (rd m s)) by (rewrite EK; reflexivity).
  destruct (ref_new_key_pair H H64 spare m (Some k) (Some (priv_at m k)) None None (self_priv m k WK) I) as (_ & GR & A).
  rewrite Y in GR, A. cbn [fst snd] in GR, A. unfold new_key_pair in A. rewrite PA in A.
  destruct (derive_public_key H (new_private_key (rd m s))) as [pub| |] eqn:DP; cbn [bind agrees] in A; try contradiction.
  destruct A as (A1 & A2 & _ & A4). destruct (A4 eq_refl) as ((P1 & P2 & P3) & _). cbn [kp_pub] in P2.
  exists pub. split; [reflexivity|]. cbv zeta.
  destruct (set_wf m2 s pos v (grows_wf _ _ _ GR W) L) as (m3 & E1 & E2 & E3). pose proof (independent m m2 (mp_pub kp) s pos v GR W P3) as IN.
  rewrite E1 in *. cbn [snd] in *. rewrite (grows_rd _ _ _ GR W) in E2. split.
  - unfold wf_pair. rewrite A2, EK. split; [exact (E3 s (grows_wf _ _ _ GR W))|exact (E3 _ P1)].
  - unfold pair_at. rewrite A2, EK. unfold priv_at. cbn [mk_value mk_raw]. rewrite E2, IN, P2. reflexivity.
Qed.

Section OldPublicKey.
Variable H : list bytes -> bytes.
Hypothesis HH : hash_ok 64 H.
Lemma old_public_key v old new m sg : wf_bytes old -> wf_bytes new -> wf_bytes m ->
  sign H (KeyPair (Some (PrivKey v new)) (public_key_of H old)) m = Ok sg ->
  exists b, verify H (KeyPair (Some (PrivKey v new)) (public_key_of H old)) m sg = Ok b /\
   (b = true <-> (q25519 | challenge H (sR sg) (public_key_of H old) m)%Z \/ public_key_of H new = public_key_of H old).
Proof.
  intros Wo Wn Wm X. destruct (public_key_wf H old) as (Wp & Lp).
  destruct (mismatch_verify H HH (PrivKey v new) (public_key_of H old) m sg Wn Wp Wm Lp X) as (b & V & IFF).
  exists b. split; [exact V|]. rewrite IFF. cbn [pk_raw]. set (h := challenge H (sR sg) (public_key_of H old) m). clearbody h. clear X V IFF sg b.
  assert (DU : forall A, denotes (public_key_of H old) A -> A = public_point H old).
  { intros A DA. apply (denotes_unique (public_key_of H old)); [exact DA|apply enc_denotes]. }
  unfold public_point in *.
  set (a := secret_scalar H old) in *. set (a' := secret_scalar H new) in *. split.
  - intros (_ & A & DA & EQ). rewrite (DU A DA) in EQ. rewrite <- !zmul_mul in EQ. apply zmul_B_inj in EQ.
    assert (DV : (q25519 | h * (a - a'))%Z).
    { rewrite Z.mul_sub_distr_l. apply Z.mod_divide; [discriminate|]. rewrite Zminus_mod, EQ, Z.sub_diag. reflexivity. }
    destruct (prime_mult _ prime_q25519 _ _ DV) as [K|K]; [left; exact K|right].
    unfold public_key_of, public_point. fold a a'. f_equal. apply zmul_B_inj.
    apply Z.mod_divide in K; [|discriminate].
    destruct (Z.mod_divide (a - a') q25519) as (K1 & _); [discriminate|]. destruct (K1 K) as (z & Z1).
    replace a with (a' + z * q25519)%Z by lia. symmetry. apply Z.mod_add. discriminate.
  - intros K. split; [apply (public_key_not_zero H)|]. exists (public_point H old). split; [apply enc_denotes|].
    unfold public_point. fold a a'. destruct K as [K|K].
    + rewrite <- !zmul_mul. apply zmul_B_inj. destruct K as (z & ->).
      rewrite <- (Z.mul_assoc z), (Z.mul_comm q25519), Z.mul_assoc, Z.mod_mul by discriminate.
      rewrite <- (Z.mul_assoc z), (Z.mul_comm q25519), Z.mul_assoc, Z.mod_mul by discriminate. reflexivity.
    + assert (PP : zmul a' Bpt = zmul a Bpt).
      { pose proof (enc_denotes (public_point H new)) as DN. change (enc_point (public_point H new)) with (public_key_of H new) in DN. rewrite K in DN. apply DU in DN. exact DN. }
      rewrite PP. reflexivity.
Qed.
End OldPublicKey.

(** ** Cases *)
Lemma save_inv {A} (f : A -> MemModel.val) e (p : prog A) m e' m' : exec (save f e p) m = (Ok e', m') ->
  exists v, e' = e ++ [v] /\ ((exists a, v = f a /\ exec p m = (Ok a, m')) \/ exists x, v = VErr x).
Proof.
  destruct (save_ok f e p m) as (X & _). rewrite X. destruct (exec p m) as [r m1]. cbn [fst snd].
  destruct r as [a|x|]; intros Y; try discriminate; injection Y as <- <-; eexists; (split; [reflexivity|]); eauto.
Qed.
Section Case.
Variable H : list bytes -> bytes.
Hypothesis H64 : forall ps, length (H ps) = 64.
Variable G : bytes -> bytes.
Variable E D : bytes -> bytes -> bytes.
Variable spare : nat -> nat.
Lemma signer_tidy m kp mess : wf_pair m kp -> wf_sl m mess ->
  tidy H G E D spare no_room m [VPair kp; VSl mess] [OSign 0 1; OVerify 0 1 2; OBytes 2; OHex 2].
Proof.
  intros W M. cbn [tidy tidy_op do_op nth_error]. split; [exact I|]. intros e1 m1 X1.
  apply save_inv in X1. destruct X1 as (v1 & -> & K1). cbn [app].
  assert (N : forall s, v1 = VSig s -> no_room s).
  { intros s ->. destruct K1 as [(g & EG & X)|(x & X)]; [|discriminate]. injection EG as ->.
    destruct (mem_sign H H64 spare m kp mess W M) as (r & m' & X' & _ & _ & A). rewrite X in X'. injection X' as <- <-.
    destruct (sign H (pair_at m kp) (rd m mess)); cbn in A; try contradiction.
    destruct A as (_ & _ & _ & _ & _ & C1 & C2 & C3 & C4). unfold no_room. lia. }
  split; [exact I|]. intros e2 m2 X2.
  assert (S2 : exists v2, e2 = [VPair kp; VSl mess; v1; v2]).
  { cbn [nth_error] in X2. destruct v1; try discriminate X2. apply save_inv in X2. destruct X2 as (v2 & -> & _). exists v2. reflexivity. }
  destruct S2 as (v2 & ->). cbn [nth_error]. split; [intros s [= ->]; apply N; reflexivity|]. intros e3 m3 X3.
  assert (S3 : exists v3, e3 = [VPair kp; VSl mess; v1; v2; v3]).
  { destruct v1; try discriminate X3. apply save_inv in X3. destruct X3 as (v3 & -> & _). exists v3. reflexivity. }
  destruct S3 as (v3 & ->). cbn [nth_error]. split; [intros s [= ->]; apply N; reflexivity|]. intros; exact I.
Qed.
Lemma goroutines_case sh kp mess : wf_pair (Mem sh []) kp -> wf_sl (Mem sh []) mess ->
  let e := [VPair kp; VSl mess] in
  forall e' os, In (e', os) [(e, [OSign 0 1; OVerify 0 1 2; OBytes 2; OHex 2]); (e, [OGenerate (repeat 7%Z 32); OEncrypt 0 2 (repeat 5%Z 48) 1; ODecrypt 0 2 3])] ->
  Forall (wf_val (Mem sh [])) e' /\ tidy H G E D spare no_room (Mem sh []) e' os.
Proof.
  intros W M e e' os [X|[X|[]]]; injection X as <- <-; (split; [apply Forall_cons; [exact W|apply Forall_cons; [exact M|apply Forall_nil]]|]).
  - apply signer_tidy; assumption.
  - apply plain_tidy. reflexivity.
Qed.
End Case.
Definition ex_sh : list bytes := [repeat 9%Z 32 ++ repeat 3%Z 5; repeat 4%Z 32].
Definition ex_kp : mpair := MPair (Some (MPriv 9 (SL (Sh 0) 0 32 37))) (SL (Sh 1) 0 32 32).
Lemma ex_shared_ok : wf_pair (Mem ex_sh []) ex_kp /\ wf_sl (Mem ex_sh []) (SL (Sh 0) 32 5 5).
Proof. unfold wf_pair, wf_priv, wf_sl. cbn. repeat split; try discriminate; lia. Qed.
Lemma sha3_64 : forall ps, length (HashModel.sha3_512 ps) = 64.
Proof.
  intros ps. unfold HashModel.sha3_512. rewrite sha3_512_parts. cbn [HashModel.ok_bytes].
  apply HashProofs.sponge_hash_ok; first [exact HashProofs.keccak_f_ok|lia].
Qed.
Lemma ex_schedule H G E D spare : exists sh g s1 s2 own1 own2,
  let c := start sh [do_ops H G E D spare [VSig g] [OMakeCanonical 0; OBytes 1]; do_ops H G E D spare [VSig g] [OCanonical 0]] in
  thread (crun c s1) 1 = Some (Ret (Ok [VSig g; VBool true]), own1) /\
  thread (crun c s2) 1 = Some (Ret (Ok [VSig g; VBool false]), own2).
Proof.
  set (l := repeat 0%Z 32 ++ le_bytes 32 (2 * q25519)). set (b := SL (Sh 0) 0 64 64).
  set (g := MSig (SL (Sh 0) 0 32 64) (SL (Sh 0) 32 32 32)).
  assert (LL : length l = 64) by (unfold l; rewrite app_length, repeat_length, le_bytes_length; reflexivity).
  assert (Wl : wf_bytes l) by (apply Forall_app; split; [apply wf_repeat; unfold is_byte; lia|apply le_bytes_wf]).
  assert (RB : forall x, length x = 64 -> rd (Mem [x] []) b = x) by (intros x L; unfold rd, array_of, b; cbn [s_arr s_off s_len arr nth_error m_sh]; apply firstn_all2; cbn [skipn]; lia).
  assert (WB : forall x, length x = 64 -> wf_sl (Mem [x] []) b) by (intros x L; unfold wf_sl, array_of, b; cbn [s_arr s_off s_len s_cap arr nth_error m_sh]; split; [discriminate|lia]).
  assert (X : forall m, exec (mnew_signature_from_bytes b) m = (Ok g, m)) by reflexivity.
  destruct (schedule_matters H G E D spare [l] b g (WB l LL) ltac:(rewrite RB by exact LL; exact Wl) (X _)) as (sh' & R' & RD).
  rewrite RB in R' by exact LL.
  set (reader := do_ops H G E D spare [VSig g] [OCanonical 0]).
  destruct (RD reader) as ((s1 & o1 & T1) & (s2 & o2 & T2)).
  exists [l], g, s1, s2, o1, o2. cbv zeta. fold reader.
  assert (SB : forall sh, length (rd (Mem sh []) b) = 64 -> wf_sig (Mem sh []) g /\ sig_at (Mem sh []) g = Sig (firstn 32 (rd (Mem sh []) b)) (skipn 32 (rd (Mem sh []) b))).
  { intros sh L. unfold rd, array_of, b in L. cbn [s_arr s_off s_len skipn] in L.
    destruct (arr (Mem sh []) (Sh 0)) as [a|] eqn:EA; [|rewrite firstn_nil in L; cbn in L; lia].
    rewrite firstn_length in L. split.
    - unfold wf_sig, wf_sl, array_of, g. cbn [mR mS s_arr s_off s_len s_cap]. rewrite EA. split; (split; [discriminate|lia]).
    - unfold sig_at, rd, array_of, g, b. cbn [mR mS s_arr s_off s_len]. rewrite EA. rewrite !skipn_O.
      f_equal.
      + rewrite firstn_firstn. reflexivity.
      + rewrite skipn_firstn_comm. reflexivity. }
  assert (S2 : skipn 32 l = le_bytes 32 (2 * q25519)) by reflexivity.
  assert (V2 : le_val (le_bytes 32 (2 * q25519)) = (2 * q25519)%Z) by (vm_compute; reflexivity).
  destruct (SB [l]) as (W1 & A1); [rewrite RB by exact LL; exact LL|]. rewrite RB in A1 by exact LL. rewrite S2 in A1.
  destruct (SB sh') as (W2 & A2); [rewrite R', app_length, firstn_length, le_bytes_length, LL; reflexivity|].
  rewrite R', S2, V2 in A2.
  assert (S3 : forall x : bytes, skipn 32 (firstn 32 l ++ x) = x) by (intros x; assert (L32 : length (firstn 32 l) = 32) by (rewrite firstn_length, LL; reflexivity); rewrite skipn_app, L32, Nat.sub_diag, skipn_all2 by lia; reflexivity).
  rewrite S3 in A2.
  change (2 * q25519 mod q25519)%Z with 0%Z in A2.
  unfold reader in *.
  rewrite (canonical_reader H G E D spare _ g W1), A1 in T1. rewrite (canonical_reader H G E D spare _ g W2), A2 in T2.
  split; [rewrite T1|rewrite T2]; reflexivity.
Qed.
Lemma ex_key H (H64 : forall ps, length (H ps) = 64) spare : hash_ok 64 H -> exists m s k kp m2,
  wf_sl m s /\ 3 < s_len s /\ exec (mnew_private_key s) m = (Ok k, m) /\ exec (mnew_key_pair H spare (Some k) None) m = (Ok kp, m2).
Proof.
  intros HH. set (m := Mem ex_sh []). set (s := SL (Sh 1) 0 32 32).
  assert (W : wf_sl m s) by (unfold wf_sl; cbn; split; [discriminate|lia]).
  set (k := MPriv (be_val (rd m s)) s).
  destruct (mem_new_key_pair H H64 spare m (Some k) None) as (r & m2 & X & _ & _ & A); [intros x [= <-]; exact W|discriminate|].
  cbn [opt_at] in A. rewrite (new_key_pair_derived H HH) in A.
  - destruct r as [kp| |]; try contradiction. exists m, s, k, kp, m2. split; [exact W|]. split; [cbn; lia|]. split; [|exact X].
    unfold mnew_private_key. destruct (read_ok m s W) as (Er & _). rewrite exec_bind, Er. reflexivity.
  - cbn [priv_at pk_raw mk_raw k]. change (rd m s) with (repeat 4%Z 32). apply wf_repeat. unfold is_byte. lia.
Qed.
