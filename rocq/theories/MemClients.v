(** Proofs: clients of the API as programs on memory refine clients on byte strings, and programs that
    write to nothing shared do not see each other. *)
From Coq Require Import List ZArith Lia Bool Arith.
From Verif Require Import GoBase GroupModel ApiModel ApiSpec MemModel MemSpec MemProofs MemApi.
Import ListNotations.
Open Scope nat_scope.

(** ** Values *)
Definition has (m : mem) (v : val) (p : pval) : Prop := wf_val m v /\ view m v = p.
Definition rel (m : mem) : env -> list pval -> Prop := Forall2 (has m).
Lemma has_sl m s b : holds m s b <-> has m (VSl s) (PSl b).
Proof. unfold holds, has. cbn. split; intros (W & E); (split; [exact W|congruence]). Qed.
Lemma has_pub m s b : holds m s b <-> has m (VPub s) (PPub b).
Proof. unfold holds, has. cbn. split; intros (W & E); (split; [exact W|congruence]). Qed.
Lemma has_priv m k p : holds_priv m k p <-> has m (VPriv k) (PPriv p).
Proof.
  unfold holds_priv, holds, has, priv_at. cbn. unfold wf_priv. destruct p as [v r]. cbn. split.
  - intros ((W & E) & V). split; [exact W|]. unfold priv_at. congruence.
  - intros (W & E). injection E as E1 E2. auto.
Qed.
Lemma has_pair m k p : holds_pair m k p <-> has m (VPair k) (PPair p).
Proof.
  unfold holds_pair, has, pair_at. cbn. unfold wf_pair, pair_at. destruct p as [q b], k as [k s]. cbn. split.
  - intros (K & W & E). destruct k as [k|], q as [q|]; try contradiction.
    + apply has_priv in K. destruct K as (K1 & K2). cbn in K1, K2. injection K2 as K2. split; [split; assumption|]. congruence.
    + split; [split; [exact I|exact W]|]. congruence.
  - intros ((W1 & W2) & E). injection E as E1 E2. split; [|split; assumption].
    destruct k as [k|], q as [q|]; try discriminate; [|exact I].
    apply has_priv. split; [exact W1|]. cbn. congruence.
Qed.
Lemma has_sig m g x : holds_sig m g x <-> has m (VSig g) (PSig x).
Proof.
  unfold holds_sig, holds, has, sig_at. cbn. unfold wf_sig, sig_at. destruct x as [r s], g as [a b]. cbn. split.
  - intros ((W1 & E1) & W2 & E2). split; [split; assumption|]. congruence.
  - intros ((W1 & W2) & E). injection E as E1 E2. auto.
Qed.
Lemma has_grows m m' v p : grows m m' -> has m v p -> has m' v p.
Proof.
  intros G K. destruct v, p; try (destruct K as (_ & E); discriminate E).
  - apply has_sl. apply has_sl in K. exact (holds_grows _ _ _ _ G K).
  - apply has_priv. apply has_priv in K. exact (priv_grows _ _ _ _ G K).
  - apply has_pub. apply has_pub in K. exact (holds_grows _ _ _ _ G K).
  - apply has_pair. apply has_pair in K. exact (pair_grows _ _ _ _ G K).
  - apply has_sig. apply has_sig in K. exact (sig_grows _ _ _ _ G K).
  - exact K.
  - exact K.
  - exact K.
Qed.
Lemma rel_grows m m' e pe : grows m m' -> rel m e pe -> rel m' e pe.
Proof. intros G K. induction K; constructor; [exact (has_grows _ _ _ _ G H)|assumption]. Qed.
Lemma rel_nth m e pe i : rel m e pe ->
  match nth_error e i, nth_error pe i with Some v, Some p => has m v p | None, None => True | _, _ => False end.
Proof.
  intros K. revert i. induction K as [|v p e pe H _ IH]; intros [|i]; cbn; auto. apply IH.
Qed.
Lemma rel_snoc m e pe v p : rel m e pe -> has m v p -> rel m (e ++ [v]) (pe ++ [p]).
Proof. intros K H. apply Forall2_app; [exact K|]. constructor; [exact H|constructor]. Qed.

Definition relr (e : env) (pe : list pval) (m : mem) : Prop := rel m e pe.
Lemma save_ok {A} (f : A -> val) e (p : prog A) : forall m,
  exec (save f e p) m = (match fst (exec p m) with Ok a => Ok (e ++ [f a]) | Err x => Ok (e ++ [VErr x]) | Panic => Panic end, snd (exec p m)) /\
  (quiet p m -> quiet (save f e p) m).
Proof.
  induction p as [r|a i k IH|a i v k IH|n k IH]; intros m; cbn [save exec quiet].
  - destruct r; split; auto.
  - destruct (cell m a i); [|split; auto]. split; [apply IH|apply IH].
  - destruct (cell m a i); [|split; auto]. split; [apply IH|]. intros (N & Q). split; [exact N|]. apply IH. exact Q.
  - split; [apply IH|apply IH].
Qed.
Lemma ref_save {A X} (f : A -> val) (g : X -> pval) e pe (p : prog A) m (v : res X) R :
  rel m e pe -> refines p m v R -> (forall a x m', grows m m' -> R a x m' -> has m' (f a) (g x)) ->
  refines (save f e p) m (keep g pe v) relr.
Proof.
  intros K (Q & G & E) F. destruct (save_ok f e p m) as (ES & QS). split; [exact (QS Q)|]. rewrite ES.
  destruct (exec p m) as [r m']. cbn [fst snd] in *. split; [exact G|]. apply (rel_grows _ _ _ _ G) in K.
  destruct r as [a|x|], v as [b|y|]; cbn in E |- *; try contradiction; auto.
  - apply rel_snoc; [exact K|]. exact (F _ _ _ G E).
  - subst. apply rel_snoc; [exact K|]. split; [exact I|reflexivity].
Qed.

Section Clients.
Variable H512 : list bytes -> bytes.
Hypothesis H512_64 : forall ps, length (H512 ps) = 64.
Variable H256 : bytes -> bytes.
Variable aesE aesD : bytes -> bytes -> bytes.
Variable spare : nat -> nat.
Notation do_op := (do_op H512 H256 aesE aesD spare).
Notation do_ops := (do_ops H512 H256 aesE aesD spare).
Notation call := (call H512 H256 aesE aesD).
Notation calls := (calls H512 H256 aesE aesD).
Notation tidy := (tidy H512 H256 aesE aesD spare).

Lemma ref_bytes m g x : holds_sig m g x -> s_cap (mR g) < s_len (mR g) + s_len (mS g) ->
  refines (mbytes spare g) m (Ok (signature_bytes x)) (shows m).
Proof. intros (K1 & K2) L. apply (append_fresh spare m (mR g) (sR x) (mS g) (sS x) K1 K2 L). Qed.

Ltac at_ R i :=
  let K := fresh "K" in
  pose proof (rel_nth _ _ _ i R) as K;
  destruct (nth_error _ i) as [[]|], (nth_error _ i) as [[]|]; try contradiction;
  try (destruct K as (_ & K); discriminate K); try apply ref_panic;
  first [apply has_sl in K|apply has_priv in K|apply has_pub in K|apply has_pair in K|apply has_sig in K|idtac].

Lemma ref_op m e pe o : rel m e pe -> tidy_op no_room e o -> refines (do_op e o) m (call pe o) relr.
Proof.
  intros R T. destruct o; cbn [MemModel.do_op MemSpec.call].
  - (* OMake *)
    change (Ok (pe ++ [PSl d])) with (keep PSl pe (Ok d)).
    eapply ref_save; [exact R|apply ref_fresh|]. intros a b m' _ (Sh & _). apply has_sl. exact (shows_holds _ _ _ _ Sh).
  - at_ R i. cbn [save].
    rewrite (holds_len _ _ _ K).
    destruct (Nat.leb_spec hi (length b)) as [L|L].
    + destruct (Nat.leb_spec lo hi) as [L'|L'].
      * destruct (reslice_ok m s b lo hi K L' L) as (t & E & Kt & _). rewrite E. cbn [andb].
        apply ref_ret. apply rel_snoc; [exact R|]. apply has_sl. exact Kt.
      * unfold reslice. replace (lo <=? hi) with false by (symmetry; apply Nat.leb_gt; exact L'). apply ref_panic.
    + rewrite andb_false_r. apply ref_panic.
  - contradiction.
  - at_ R i. change (Ok (pe ++ [PPriv (new_private_key b)])) with (keep PPriv pe (Ok (new_private_key b))).
    eapply ref_save; [exact R|exact (ref_new_private_key _ _ _ K)|]. intros a x m' _ (A & _). apply has_priv. exact A.
  - at_ R i. apply ref_ret. apply rel_snoc; [exact R|]. apply has_pub. exact K.
  - at_ R k. eapply ref_save; [exact R|exact (ref_derive H512 H512_64 spare _ _ _ K)|].
    intros a x m' _ A. apply has_pub. exact (tight_holds _ _ _ _ A).
  - (* OPair *)
    assert (KK : match (match k with None => Some None | Some i => match nth_error e i with Some (VPriv x) => Some (Some x) | _ => None end end),
      (match k with None => Some None | Some i => match nth_error pe i with Some (PPriv x) => Some (Some x) | _ => None end end) with
      | Some a, Some b => holds_opt (holds_priv m) a b | None, None => True | _, _ => False end).
    { destruct k as [i|]; [|exact I]. pose proof (rel_nth _ _ _ i R) as K.
      destruct (nth_error e i) as [[]|], (nth_error pe i) as [[]|]; try contradiction; try exact I;
      try (destruct K as (_ & K); discriminate K). apply has_priv. exact K. }
    assert (PP : match (match p with None => Some None | Some i => match nth_error e i with Some (VPub x) => Some (Some x) | _ => None end end),
      (match p with None => Some None | Some i => match nth_error pe i with Some (PPub x) => Some (Some x) | _ => None end end) with
      | Some a, Some b => holds_opt (holds m) a b | None, None => True | _, _ => False end).
    { destruct p as [i|]; [|exact I]. pose proof (rel_nth _ _ _ i R) as K.
      destruct (nth_error e i) as [[]|], (nth_error pe i) as [[]|]; try contradiction; try exact I;
      try (destruct K as (_ & K); discriminate K). apply has_pub. exact K. }
    destruct (match k with None => Some None | Some i => match nth_error e i with Some (VPriv x) => Some (Some x) | _ => None end end) as [a|],
      (match k with None => Some None | Some i => match nth_error pe i with Some (PPriv x) => Some (Some x) | _ => None end end) as [b|];
      try contradiction; [|apply ref_panic].
    destruct (match p with None => Some None | Some i => match nth_error e i with Some (VPub x) => Some (Some x) | _ => None end end) as [c|],
      (match p with None => Some None | Some i => match nth_error pe i with Some (PPub x) => Some (Some x) | _ => None end end) as [d|];
      try contradiction; [|apply ref_panic].
    eapply ref_save; [exact R|exact (ref_new_key_pair H512 H512_64 spare _ _ _ _ _ KK PP)|].
    intros x y m' _ (A & _). apply has_pair. exact A.
  - eapply ref_save; [exact R|apply (ref_generate H512 H512_64)|]. intros x y m' _ (A & _). apply has_pair. exact A.
  - at_ R i. at_ R j. eapply ref_save; [exact R|exact (ref_new_signature _ _ _ _ _ K K0)|].
    intros x y m' _ (-> & -> & -> & _). apply has_sig. split; assumption.
  - at_ R i. eapply ref_save; [exact R|exact (ref_from_bytes _ _ _ K)|]. intros x y m' _ (A & _). apply has_sig. exact A.
  - at_ R k. at_ R i. eapply ref_save; [exact R|exact (ref_sign H512 H512_64 spare _ _ _ _ _ K K0)|].
    intros x y m' _ (A1 & A2 & _). apply has_sig. split; [exact (tight_holds _ _ _ _ A1)|exact (tight_holds _ _ _ _ A2)].
  - at_ R k. at_ R i. at_ R g. eapply ref_save; [exact R|exact (ref_verify H512 spare _ _ _ _ _ _ _ K K0 K1)|].
    intros x y m' _ A. rewrite A. split; [exact I|reflexivity].
  - at_ R g. change (Ok (pe ++ [PBool (is_canonical_signature g1)])) with (keep PBool pe (Ok (is_canonical_signature g1))).
    eapply ref_save; [exact R|exact (ref_is_canonical _ _ _ (proj2 K))|]. intros x y m' _ (-> & ->). split; [exact I|reflexivity].
  - at_ R g. eapply ref_save; [exact R|exact (ref_make_canonical _ _ _ K)|]. intros x y m' _ (_ & A & _). apply has_sig. exact A.
  - at_ R s. at_ R r. at_ R i.
    eapply ref_save; [exact R|exact (ref_encrypt H512 H512_64 H256 aesE spare _ _ _ _ _ _ _ _ K K0 K1)|].
    intros x y m' _ A. apply has_sl. exact (shows_holds _ _ _ _ A).
  - at_ R s. at_ R r. at_ R i.
    eapply ref_save; [exact R|exact (ref_decrypt H512 H512_64 H256 aesD spare _ _ _ _ _ _ _ K K0 K1)|].
    intros x y m' _ A. apply has_sl. exact (shows_holds _ _ _ _ A).
  - cbn in T. pose proof (rel_nth _ _ _ g R) as K.
    destruct (nth_error e g) as [[]|], (nth_error pe g) as [[]|]; try contradiction;
      try (destruct K as (_ & K); discriminate K); try apply ref_panic. apply has_sig in K.
    change (Ok (pe ++ [PSl (signature_bytes g1)])) with (keep PSl pe (Ok (signature_bytes g1))).
    eapply ref_save; [exact R|exact (ref_bytes _ _ _ K (T _ eq_refl))|].
    intros x y m' _ A. apply has_sl. exact (shows_holds _ _ _ _ A).
  - cbn in T. pose proof (rel_nth _ _ _ k R) as K.
    destruct (nth_error e k) as [[]|], (nth_error pe k) as [[]|]; try contradiction;
      try (destruct K as (_ & K); discriminate K); try apply ref_panic; cbn [mstring].
    + apply has_priv in K. change (Ok (pe ++ [PStr (private_key_string k1)])) with (keep PStr pe (Ok (private_key_string k1))).
      eapply (ref_save VStr PStr _ _ _ _ _ is); [exact R| |intros a x m' _ ->; split; [exact I|reflexivity]].
      eapply ref_let; [exact (ref_readh _ _ _ (proj1 K))|]. intros a m' _ (-> & ->). apply ref_ret. reflexivity.
    + apply has_pub in K. change (Ok (pe ++ [PStr (public_key_string b)])) with (keep PStr pe (Ok (public_key_string b))).
      eapply (ref_save VStr PStr _ _ _ _ _ is); [exact R| |intros a x m' _ ->; split; [exact I|reflexivity]].
      eapply ref_let; [exact (ref_readh _ _ _ K)|]. intros a m' _ (-> & ->). apply ref_ret. reflexivity.
    + apply has_sig in K. change (Ok (pe ++ [PStr (signature_string g0)])) with (keep PStr pe (Ok (signature_string g0))).
      eapply (ref_save VStr PStr _ _ _ _ _ is); [exact R| |intros a x m' _ ->; split; [exact I|reflexivity]].
      eapply ref_let; [exact (ref_bytes _ _ _ K (T _ eq_refl))|]. intros a m' _ A.
      eapply ref_let; [exact (ref_readh _ _ _ (shows_holds _ _ _ _ A))|]. intros c m2 _ (-> & ->). apply ref_ret. reflexivity.
Qed.
Lemma ref_ops os : forall m e pe, rel m e pe -> tidy no_room m e os -> refines (do_ops e os) m (calls pe os) relr.
Proof.
  induction os as [|o os IH]; intros m e pe R T; cbn [MemModel.do_ops MemSpec.calls].
  - apply ref_ret. exact R.
  - cbn in T. destruct T as (T & N). pose proof (ref_op m e pe o R T) as K.
    destruct K as (Q & G & A). destruct (exec (do_op e o) m) as [r m'] eqn:E. cbn [fst snd] in *.
    split.
    + apply quiet_bind; [exact Q|]. intros e' m1 E1. rewrite E in E1. injection E1 as -> ->.
      destruct (call pe o) as [pe'| |]; cbn in A; try contradiction. exact (proj1 (IH _ _ _ A (N _ _ eq_refl))).
    + rewrite exec_bind, E. destruct r as [e'|x|], (call pe o) as [pe'|y|]; cbn in A; try contradiction; cbn [bind].
      * destruct (IH _ _ _ A (N _ _ eq_refl)) as (_ & G' & A'). split; [exact (grows_trans _ _ _ G G')|exact A'].
      * split; [exact G|exact A].
      * split; [exact G|exact I].
Qed.
End Clients.

(** ** Interleaving *)
(** k turns of one program alone *)
Fixpoint turns {A} (k : nat) (pm : prog A * mem) : prog A * mem :=
  match k with
  | O => pm
  | S k' => match pstep (fst pm) (snd pm) with None => pm | Some pm' => turns k' pm' end
  end.
Notation counts := turns_of.

Lemma turns_ret {A} k (r : res A) m : turns k (Ret r, m) = (Ret r, m).
Proof. destruct k; reflexivity. Qed.
Lemma turns_snoc {A} k : forall pm : prog A * mem,
  turns (S k) pm = match pstep (fst (turns k pm)) (snd (turns k pm)) with None => turns k pm | Some x => x end.
Proof.
  induction k as [|k IH]; intros pm; [cbn [turns]; destruct (pstep (fst pm) (snd pm)); reflexivity|].
  change (turns (S (S k)) pm) with (match pstep (fst pm) (snd pm) with None => pm | Some pm' => turns (S k) pm' end).
  change (turns (S k) pm) with (match pstep (fst pm) (snd pm) with None => pm | Some pm' => turns k pm' end).
  destruct (pstep (fst pm) (snd pm)) as [pm'|] eqn:E; [apply IH|]. rewrite E. reflexivity.
Qed.
(** enough turns finish the program with the result of the uninterrupted run *)
Lemma turns_enough {A} (p : prog A) : forall m k, accesses p m <= k ->
  turns k (p, m) = (Ret (fst (exec p m)), snd (exec p m)).
Proof.
  induction p as [r|a i f IH|a i v f IH|n f IH]; intros m k L; cbn [accesses exec] in *.
  - apply turns_ret.
  - destruct k as [|k]; [lia|]. cbn [turns fst snd pstep].
    destruct (cell m a i); [apply IH; lia|apply turns_ret].
  - destruct k as [|k]; [lia|]. cbn [turns fst snd pstep].
    destruct (cell m a i); [apply IH; lia|apply turns_ret].
  - destruct k as [|k]; [lia|]. cbn [turns fst snd pstep]. apply IH; lia.
Qed.
Lemma set_nth_id {A} (l : list A) i v : nth_error l i = Some v -> set_nth l i v = l.
Proof. intros E. unfold set_nth. rewrite <- (skipn_cons l i v E). apply firstn_skipn. Qed.
Lemma set_cell_id m a i v : cell m a i = Some v -> set_cell m a i v = m.
Proof.
  unfold cell. destruct (arr m a) as [l|] eqn:E; [|discriminate]. intros C. destruct m as [sh own].
  destruct a as [n|n]; cbn in *;
    [assert (NL : @nth bytes n sh [] = l) by (apply nth_error_nth; exact E)|assert (NL : @nth bytes n own [] = l) by (apply nth_error_nth; exact E)];
    rewrite NL, (set_nth_id l i v C), (set_nth_id _ n l E); reflexivity.
Qed.
Lemma quiet_calm {A} (p : prog A) : forall m, quiet p m -> calm p m.
Proof.
  induction p as [r|a i k IH|a i v k IH|n k IH]; intros m Q; cbn [quiet calm] in *.
  - exact I.
  - destruct (cell m a i); [apply IH; exact Q|exact I].
  - destruct Q as (N & Q). split; [left; exact N|]. destruct (cell m a i); [apply IH; exact Q|exact I].
  - apply IH. exact Q.
Qed.
Lemma calm_step {A} (p : prog A) m p' m' : calm p m -> pstep p m = Some (p', m') -> calm p' m' /\ m_sh m' = m_sh m.
Proof.
  intros Q E. destruct p as [r|a i f|a i v f|n f]; cbn [pstep calm] in *.
  - discriminate.
  - injection E as E. destruct (cell m a i); injection E as <- <-; [split; [exact Q|reflexivity]|split; [exact I|reflexivity]].
  - injection E as E. destruct Q as (N & Q). destruct (cell m a i) as [w|] eqn:C; injection E as <- <-; [|split; [exact I|reflexivity]].
    split; [exact Q|]. destruct N as [N|N].
    + destruct a as [j|j]; [destruct (N j eq_refl)|reflexivity].
    + injection N as ->. rewrite set_cell_id by exact C. reflexivity.
  - injection E as <- <-. split; [exact Q|reflexivity].
Qed.
Lemma calm_turns {A} k : forall (p : prog A) m, calm p m ->
  calm (fst (turns k (p, m))) (snd (turns k (p, m))) /\ m_sh (snd (turns k (p, m))) = m_sh m.
Proof.
  induction k as [|k IH]; intros p m Q; [split; [exact Q|reflexivity]|].
  cbn [turns fst snd]. destruct (pstep p m) as [[p' m']|] eqn:E; [|split; [exact Q|reflexivity]].
  destruct (calm_step p m p' m' Q E) as (Q' & S'). destruct (IH p' m' Q') as (Q2 & S2). split; [exact Q2|congruence].
Qed.
Lemma quiet_step {A} (p : prog A) m p' m' : quiet p m -> pstep p m = Some (p', m') -> quiet p' m'.
Proof.
  intros Q E. destruct p as [r|a i f|a i v f|n f]; cbn [pstep quiet] in *.
  - discriminate.
  - injection E as E. destruct (cell m a i); injection E as <- <-; [exact Q|exact I].
  - injection E as E. destruct Q as (N & Q). destruct (cell m a i); injection E as <- <-; [exact Q|exact I].
  - injection E as <- <-. exact Q.
Qed.
Lemma quiet_turns {A} k : forall (p : prog A) m, quiet p m -> quiet (fst (turns k (p, m))) (snd (turns k (p, m))).
Proof.
  induction k as [|k IH]; intros p m Q; [exact Q|].
  cbn [turns fst snd]. destruct (pstep p m) as [[p' m']|] eqn:E; [|exact Q].
  exact (IH p' m' (quiet_step p m p' m' Q E)).
Qed.

Lemma crun_snoc {A} (c : machine A) l t : crun c (l ++ [t]) = cstep (crun c l) t.
Proof. unfold crun. rewrite fold_left_app. reflexivity. Qed.
Lemma count_snoc t l x : counts t (l ++ [x]) = counts t l + (if Nat.eq_dec x t then 1 else 0).
Proof. unfold turns_of. rewrite count_occ_app. cbn. destruct (Nat.eq_dec x t); lia. Qed.

(** the state of every goroutine is that of its own turns alone *)
Lemma interleave {A} sh (ps : list (prog A)) : Forall (fun p => calm p (Mem sh [])) ps -> forall schedule,
  let c := crun (start sh ps) schedule in
  c_sh c = sh /\ length (c_threads c) = length ps /\
  forall t p, nth_error ps t = Some p ->
    nth_error (c_threads c) t = Some (let x := turns (counts t schedule) (p, Mem sh []) in (fst x, m_own (snd x))).
Proof.
  intros F. induction schedule as [|t0 l IH] using rev_ind.
  - cbn. split; [reflexivity|]. split; [apply map_length|]. intros t p E. rewrite nth_error_map, E. reflexivity.
  - rewrite crun_snoc. cbv zeta in *. destruct IH as (S1 & L1 & T1). set (c := crun (start sh ps) l) in *. clearbody c.
    unfold cstep. destruct (nth_error (c_threads c) t0) as [[q own]|] eqn:E0.
    2:{ split; [exact S1|]. split; [exact L1|]. intros t p E. rewrite (T1 t p E), count_snoc.
        destruct (Nat.eq_dec t0 t) as [->|]; [|rewrite Nat.add_0_r; reflexivity].
        rewrite (T1 t p E) in E0. discriminate. }
    assert (L0 : t0 < length ps) by (rewrite <- L1; apply nth_error_Some; rewrite E0; discriminate).
    destruct (nth_error_lt ps t0 L0) as (p0 & P0). pose proof (T1 t0 p0 P0) as X0. rewrite E0 in X0. cbv zeta in X0.
    set (st := turns (counts t0 l) (p0, Mem sh [])) in X0.
    assert (QS : calm (fst st) (snd st) /\ m_sh (snd st) = sh).
    { apply (calm_turns _ p0 (Mem sh [])). rewrite Forall_forall in F. apply F. exact (nth_error_In _ _ P0). }
    destruct QS as (Q & SS). injection X0 as Eq Eo.
    assert (MS : Mem (c_sh c) own = snd st). { rewrite S1, Eo, <- SS. destruct (snd st); reflexivity. }
    rewrite MS. subst q.
    assert (NT : turns (S (counts t0 l)) (p0, Mem sh []) = match pstep (fst st) (snd st) with None => st | Some x => x end)
      by apply turns_snoc.
    destruct (pstep (fst st) (snd st)) as [[q' m']|] eqn:PS.
    + destruct (calm_step _ _ _ _ Q PS) as (_ & SH'). cbn [c_sh c_threads].
      split; [congruence|]. split; [rewrite set_nth_length; [exact L1|rewrite L1; exact L0]|].
      intros t p E. rewrite count_snoc. destruct (Nat.eq_dec t0 t) as [->|NE].
      * rewrite set_nth_same by (rewrite L1; exact L0). rewrite P0 in E. injection E as <-.
        rewrite Nat.add_1_r, NT. reflexivity.
      * rewrite set_nth_other; [|rewrite L1; exact L0|exact NE]. rewrite Nat.add_0_r. apply T1. exact E.
    + split; [exact S1|]. split; [exact L1|]. intros t p E. rewrite count_snoc.
      destruct (Nat.eq_dec t0 t) as [->|NE]; [|rewrite Nat.add_0_r; apply T1; exact E].
      rewrite P0 in E. injection E as <-. rewrite Nat.add_1_r, NT. apply T1. exact P0.
Qed.

(** goroutine [t] alone, until it is finished *)
Lemma run_alone {A} t (p : prog A) : forall (c : machine A) own, nth_error (c_threads c) t = Some (p, own) ->
  exists k, let x := exec p (Mem (c_sh c) own) in
  crun c (repeat t k) = Machine (m_sh (snd x)) (set_nth (c_threads c) t (Ret (fst x), m_own (snd x))).
Proof.
  assert (Z : forall (c : machine A) own (r : res A), nth_error (c_threads c) t = Some (Ret r, own) ->
     c = Machine (c_sh c) (set_nth (c_threads c) t (Ret r, own))).
  { intros c own r E. rewrite set_nth_id by exact E. destruct c; reflexivity. }
  assert (ST : forall (c : machine A) p own p' m' k res, nth_error (c_threads c) t = Some (p, own) ->
     pstep p (Mem (c_sh c) own) = Some (p', m') ->
     crun (Machine (m_sh m') (set_nth (c_threads c) t (p', m_own m'))) (repeat t k) =
       Machine (m_sh (snd res)) (set_nth (set_nth (c_threads c) t (p', m_own m')) t (Ret (fst res), m_own (snd res))) ->
     crun c (repeat t (S k)) = Machine (m_sh (snd res)) (set_nth (c_threads c) t (Ret (fst res), m_own (snd res)))).
  { intros c q own q' m' k rs E P R. cbn [repeat]. unfold crun in *. cbn [fold_left].
    assert (L : t < length (c_threads c)) by (apply nth_error_Some; rewrite E; discriminate).
    assert (CS : cstep c t = Machine (m_sh m') (set_nth (c_threads c) t (q', m_own m'))) by (unfold cstep; rewrite E, P; reflexivity).
    rewrite CS, R. f_equal. unfold set_nth. rewrite firstn_app, firstn_length.
    replace (t - Nat.min t (length (c_threads c))) with 0 by lia. cbn [firstn]. rewrite app_nil_r, firstn_firstn, Nat.min_id.
    f_equal. f_equal. rewrite skipn_app, firstn_length. rewrite skipn_all2 by (rewrite firstn_length; lia).
    replace (S t - Nat.min t (length (c_threads c))) with 1 by lia. reflexivity. }
  assert (NE : forall (c : machine A) x own m, nth_error (c_threads c) t = Some x ->
     nth_error (c_threads (Machine m (set_nth (c_threads c) t own))) t = Some own).
  { intros c x own m E. cbn [c_threads]. apply set_nth_same. apply nth_error_Some. rewrite E. discriminate. }
  induction p as [r|a i k IH|a i v k IH|n k IH]; intros c own E; cbn [exec]; cbv zeta.
  - exists 0. cbn. apply Z. exact E.
  - destruct (cell (Mem (c_sh c) own) a i) as [v|] eqn:C.
    + destruct (IH v (Machine (c_sh c) (set_nth (c_threads c) t (k v, own))) own (NE _ _ _ _ E)) as (j & J).
      cbn [c_sh c_threads] in J. exists (S j). refine (ST c _ own (k v) (Mem (c_sh c) own) j _ E _ J). cbn [pstep]. rewrite C. reflexivity.
    + exists 1. refine (ST c _ own (Ret Panic) (Mem (c_sh c) own) 0 (Panic, Mem (c_sh c) own) E _ _).
      * cbn [pstep]. rewrite C. reflexivity.
      * cbn. apply (Z (Machine (c_sh c) _) own Panic). exact (NE _ _ _ _ E).
  - destruct (cell (Mem (c_sh c) own) a i) as [w|] eqn:C.
    + set (m' := set_cell (Mem (c_sh c) own) a i v) in *.
      destruct (IH (Machine (m_sh m') (set_nth (c_threads c) t (k, m_own m'))) (m_own m') (NE _ _ _ _ E)) as (j & J).
      cbn [c_sh c_threads] in J. replace (Mem (m_sh m') (m_own m')) with m' in J by (destruct m'; reflexivity).
      exists (S j). refine (ST c _ own k m' j _ E _ J). cbn [pstep]. rewrite C. reflexivity.
    + exists 1. refine (ST c _ own (Ret Panic) (Mem (c_sh c) own) 0 (Panic, Mem (c_sh c) own) E _ _).
      * cbn [pstep]. rewrite C. reflexivity.
      * cbn. apply (Z (Machine (c_sh c) _) own Panic). exact (NE _ _ _ _ E).
  - set (m' := push (Mem (c_sh c) own) (repeat 0%Z n)) in *. cbn [m_own].
    destruct (IH (Own (length own)) (Machine (m_sh m') (set_nth (c_threads c) t (k (Own (length own)), m_own m'))) (m_own m') (NE _ _ _ _ E)) as (j & J).
    cbn [c_sh c_threads] in J. replace (Mem (m_sh m') (m_own m')) with m' in J by (destruct m'; reflexivity).
    exists (S j). refine (ST c _ own _ m' j _ E _ J). reflexivity.
Qed.

(** ** Signatures whose S follows R *)
Lemma calm_bind {A B} (p : prog A) (f : A -> prog B) : forall m,
  calm p m -> (forall a m', exec p m = (Ok a, m') -> calm (f a) m') -> calm (bindp p f) m.
Proof.
  induction p as [r|a i k IH|a i v k IH|n k IH]; intros m Q F; cbn [bindp calm exec] in *.
  - destruct r as [a|e|]; [apply F; reflexivity|exact I|exact I].
  - destruct (cell m a i); [|exact I]. apply IH; assumption.
  - destruct Q as (N & Q). split; [exact N|]. destruct (cell m a i); [|exact I]. apply IH; assumption.
  - apply IH; assumption.
Qed.
Definition refinesc {A X} (p : prog A) (m : mem) (v : res X) (R : A -> X -> mem -> Prop) : Prop :=
  calm p m /\ grows m (snd (exec p m)) /\ agrees R (fst (exec p m)) v (snd (exec p m)).
Lemma refc_of {A X} (p : prog A) m (v : res X) R : refines p m v R -> refinesc p m v R.
Proof. intros (Q & K). split; [exact (quiet_calm _ _ Q)|exact K]. Qed.
Lemma write_same {A} (k : prog A) m a l : arr m a = Some l -> forall d i, firstn (length d) (skipn i l) = d ->
  exec (write_from a i d k) m = exec k m /\ (calm k m -> calm (write_from a i d k) m).
Proof.
  intros EA. induction d as [|v d IH]; intros i E; [split; [reflexivity|auto]|].
  assert (X : nth_error l i = Some v).
  { cbn [length] in E. destruct (skipn i l) as [|y r] eqn:S; [discriminate|]. cbn [firstn] in E. injection E as -> _.
    rewrite <- (firstn_skipn i l), S. rewrite nth_error_app2 by (rewrite firstn_length; lia).
    rewrite firstn_length. replace (i - Nat.min i (length l)) with 0; [reflexivity|].
    assert (i < length l) by (destruct (Nat.lt_ge_cases i (length l)); [assumption|rewrite skipn_all2 in S by assumption; discriminate]). lia. }
  assert (C : cell m a i = Some v) by (unfold cell; rewrite EA; exact X).
  rewrite (skipn_cons l i v X) in E. cbn [length firstn] in E. injection E as E.
  destruct (IH (S i) E) as (E1 & Q1). cbn [write_from exec calm]. rewrite C, (set_cell_id _ _ _ _ C).
  split; [exact E1|]. intros K. split; [right; reflexivity|exact (Q1 K)].
Qed.
Lemma skipn_add {A} (l : list A) : forall a b, skipn (a + b) l = skipn b (skipn a l).
Proof. intros a. revert l. induction a as [|a IH]; intros l b; [reflexivity|]. destruct l; [rewrite !skipn_nil; reflexivity|]. apply IH. Qed.
Lemma firstn_add {A} (l : list A) : forall a b, firstn (a + b) l = firstn a l ++ firstn b (skipn a l).
Proof. intros a. revert l. induction a as [|a IH]; intros l b; [reflexivity|]. destruct l; [cbn; rewrite firstn_nil; reflexivity|]. cbn. f_equal. apply IH. Qed.
Lemma bytes_followed spare m g x : holds_sig m g x -> followed g -> s_len (mR g) + s_len (mS g) <= s_cap (mR g) ->
  exec (mbytes spare g) m = (Ok (SL (s_arr (mR g)) (s_off (mR g)) (s_len (mR g) + s_len (mS g)) (s_cap (mR g))), m) /\
  calm (mbytes spare g) m /\
  holds m (SL (s_arr (mR g)) (s_off (mR g)) (s_len (mR g) + s_len (mS g)) (s_cap (mR g))) (signature_bytes x).
Proof.
  intros (KR & KS) (F1 & F2) L. destruct g as [r s]. cbn [mR mS] in *. unfold mbytes, go_append. cbn [mR mS].
  replace (s_len r + s_len s <=? s_cap r) with true by (symmetry; apply Nat.leb_le; exact L).
  destruct (wf_arr m r (proj1 KR)) as (l & A1 & A2 & A3).
  destruct (read_ok m s (proj1 KS)) as (Er & Qr). rewrite (proj2 KS) in Er.
  assert (D : firstn (length (sS x)) (skipn (s_off r + s_len r) l) = sS x).
  { rewrite <- (holds_len _ _ _ KS). rewrite <- (proj2 KS). unfold rd. rewrite F1, F2, A2. reflexivity. }
  destruct (write_same (ret (SL (s_arr r) (s_off r) (s_len r + s_len s) (s_cap r))) m (s_arr r) l A1 (sS x) (s_off r + s_len r) D) as (EW & QW).
  split; [rewrite exec_bind, Er, EW; reflexivity|]. split.
  - apply calm_bind; [exact (quiet_calm _ _ Qr)|]. intros d m' E. rewrite Er in E. injection E as <- <-. apply QW. exact I.
  - split.
    + destruct (proj1 KR) as (W1 & W2 & W3). split; [exact W1|]. cbn [s_len s_cap s_off s_arr]. split; [exact L|exact W3].
    + unfold rd, signature_bytes. cbn [s_len s_off s_arr]. rewrite A2, firstn_add. f_equal.
      * rewrite <- (proj2 KR). unfold rd. rewrite A2. reflexivity.
      * rewrite <- skipn_add, (holds_len _ _ _ KS). exact D.
Qed.
Lemma refc_bytes spare m g x : holds_sig m g x -> no_room g \/ followed g ->
  refinesc (mbytes spare g) m (Ok (signature_bytes x)) (fun s b m' => holds m' s b).
Proof.
  intros K F. destruct (Nat.lt_ge_cases (s_cap (mR g)) (s_len (mR g) + s_len (mS g))) as [L|L].
  - apply refc_of. eapply ref_imp; [exact (append_fresh spare m (mR g) (sR x) (mS g) (sS x) (proj1 K) (proj2 K) L)|].
    intros s b m' _ Sh. exact (shows_holds _ _ _ _ Sh).
  - destruct F as [F|F]; [unfold no_room in F; lia|].
    destruct (bytes_followed spare m g x K F L) as (E & Q & H). split; [exact Q|]. rewrite E. split; [apply grows_refl|exact H].
Qed.
Lemma save_calm {A} (f : A -> val) e (p : prog A) : forall m, calm p m -> calm (save f e p) m.
Proof.
  induction p as [r|a i k IH|a i v k IH|n k IH]; intros m Q; cbn [save calm] in *.
  - destruct r; exact I.
  - destruct (cell m a i); [apply IH; exact Q|exact I].
  - destruct Q as (N & Q). split; [exact N|]. destruct (cell m a i); [apply IH; exact Q|exact I].
  - apply IH. exact Q.
Qed.
Lemma refc_save {A X} (f : A -> val) (g : X -> pval) e pe (p : prog A) m (v : res X) R :
  rel m e pe -> refinesc p m v R -> (forall a x m', grows m m' -> R a x m' -> has m' (f a) (g x)) ->
  refinesc (save f e p) m (keep g pe v) relr.
Proof.
  intros K (Q & G & E) F. destruct (save_ok f e p m) as (ES & _). split; [exact (save_calm _ _ _ _ Q)|]. rewrite ES.
  destruct (exec p m) as [r m']. cbn [fst snd] in *. split; [exact G|]. apply (rel_grows _ _ _ _ G) in K.
  destruct r as [a|x|], v as [b|y|]; cbn in E |- *; try contradiction; auto.
  - apply rel_snoc; [exact K|]. exact (F _ _ _ G E).
  - subst. apply rel_snoc; [exact K|]. split; [exact I|reflexivity].
Qed.
Section CalmClients.
Variable H512 : list bytes -> bytes.
Hypothesis H512_64 : forall ps, length (H512 ps) = 64.
Variable H256 : bytes -> bytes.
Variable aesE aesD : bytes -> bytes -> bytes.
Variable spare : nat -> nat.
Notation do_op := (do_op H512 H256 aesE aesD spare).
Notation do_ops := (do_ops H512 H256 aesE aesD spare).
Notation call := (call H512 H256 aesE aesD).
Notation calls := (calls H512 H256 aesE aesD).
Notation tidy := (tidy H512 H256 aesE aesD spare).
Definition roomless_or_followed (g : msig) : Prop := no_room g \/ followed g.
Lemma refc_op m e pe o : rel m e pe -> tidy_op roomless_or_followed e o -> refinesc (do_op e o) m (call pe o) relr.
Proof.
  intros R T. destruct o; try (apply refc_of; apply ref_op; [exact H512_64|exact R|exact T]).
  - cbn in T. cbn [MemModel.do_op MemSpec.call]. pose proof (rel_nth _ _ _ g R) as K.
    destruct (nth_error e g) as [[]|], (nth_error pe g) as [[]|]; try contradiction;
      try (destruct K as (_ & K); discriminate K); try (apply refc_of, ref_panic). apply has_sig in K.
    change (Ok (pe ++ [PSl (signature_bytes g1)])) with (keep PSl pe (Ok (signature_bytes g1))).
    eapply refc_save; [exact R|exact (refc_bytes spare _ _ _ K (T _ eq_refl))|].
    intros x y m' _ A. apply has_sl. exact A.
  - cbn in T. pose proof (rel_nth _ _ _ k R) as K.
    destruct (nth_error e k) as [[]|] eqn:EK;
      try (apply refc_of; apply ref_op; [exact H512_64|exact R|cbn; rewrite EK; let a := fresh in let E := fresh in intros a E; discriminate E]).
    cbn [MemModel.do_op MemSpec.call]. rewrite EK.
    destruct (nth_error pe k) as [[]|]; try contradiction; try (destruct K as (_ & K); discriminate K). cbn [mstring].
    apply has_sig in K. change (Ok (pe ++ [PStr (signature_string g0)])) with (keep PStr pe (Ok (signature_string g0))).
    eapply (refc_save VStr PStr _ _ _ _ _ is); [exact R| |intros a x m' _ ->; split; [exact I|reflexivity]].
    destruct (refc_bytes spare _ _ _ K (T _ eq_refl)) as (Q & G & A).
    destruct (exec (mbytes spare g) m) as [r m'] eqn:E. cbn [fst snd] in *. destruct r as [s| |]; try contradiction. cbn in A.
    destruct (read_ok m' s (proj1 A)) as (Er & Qr). rewrite (proj2 A) in Er.
    split; [|split].
    + apply calm_bind; [exact Q|]. intros a m1 E1. rewrite E in E1. injection E1 as <- <-.
      apply calm_bind; [exact (quiet_calm _ _ Qr)|]. intros; exact I.
    + rewrite exec_bind, E, exec_bind, Er. exact G.
    + rewrite exec_bind, E, exec_bind, Er. reflexivity.
Qed.
Lemma refc_ops os : forall m e pe, rel m e pe -> tidy roomless_or_followed m e os -> refinesc (do_ops e os) m (calls pe os) relr.
Proof.
  induction os as [|o os IH]; intros m e pe R T; cbn [MemModel.do_ops MemSpec.calls].
  - apply refc_of, ref_ret. exact R.
  - cbn in T. destruct T as (T & N). pose proof (refc_op m e pe o R T) as K.
    destruct K as (Q & G & A). destruct (exec (do_op e o) m) as [r m'] eqn:E. cbn [fst snd] in *.
    split.
    + apply calm_bind; [exact Q|]. intros e' m1 E1. rewrite E in E1. injection E1 as -> ->.
      destruct (call pe o) as [pe'| |]; cbn in A; try contradiction. exact (proj1 (IH _ _ _ A (N _ _ eq_refl))).
    + rewrite exec_bind, E. destruct r as [e'|x|], (call pe o) as [pe'|y|]; cbn in A; try contradiction; cbn [bind].
      * destruct (IH _ _ _ A (N _ _ eq_refl)) as (_ & G' & A'). split; [exact (grows_trans _ _ _ G G')|exact A'].
      * split; [exact G|exact A].
      * split; [exact G|exact I].
Qed.
End CalmClients.
