(** Proofs about [AliasModel]. *)
From Coq Require Import List ZArith Lia Bool Arith.
From Verif Require Import GoBase FieldSpec ByteLemmas FieldModel ScalarModel GroupModel ApiModel ApiSpec
  PropFieldLemmas PropSigLemmas VerifyProofs AliasModel AliasSpec.
Import ListNotations.
Open Scope nat_scope.

(** ** Lists *)
Lemma nth_skipn {A} n (l : list A) i d : nth i (skipn n l) d = nth (n + i) l d.
Proof.
  revert l; induction n as [|n IH]; intros [|a l]; cbn; try reflexivity; [|apply IH]. now destruct i.
Qed.
Lemma nth_firstn {A} n (l : list A) i d : i < n -> nth i (firstn n l) d = nth i l d.
Proof.
  revert l i; induction n as [|n IH]; intros [|a l] [|i] L; cbn; try reflexivity; try lia. apply IH. lia.
Qed.
Lemma skipn_skipn {A} a b (l : list A) : skipn a (skipn b l) = skipn (a + b) l.
Proof.
  rewrite Nat.add_comm. revert l; induction b as [|b IH]; intros l; [reflexivity|].
  destruct l as [|x l]; [now rewrite !skipn_nil|]. cbn [skipn Nat.add]. apply IH.
Qed.
Lemma overwrite_length l i d : i + length d <= length l -> length (overwrite l i d) = length l.
Proof.
  intros L. unfold overwrite. rewrite !app_length, firstn_length, skipn_length. lia.
Qed.
Lemma overwrite_nth l i d k : i + length d <= length l ->
  nth k (overwrite l i d) 0%Z =
  if (i <=? k) && (k <? i + length d) then nth (k - i) d 0%Z else nth k l 0%Z.
Proof.
  intros L. unfold overwrite.
  destruct (Nat.leb_spec i k); cbn [andb].
  - rewrite app_nth2; rewrite firstn_length; [|lia].
    replace (k - min i (length l)) with (k - i) by lia.
    destruct (Nat.ltb_spec k (i + length d)).
    + rewrite app_nth1 by lia. reflexivity.
    + rewrite app_nth2 by lia. rewrite nth_skipn. f_equal. lia.
  - rewrite app_nth1 by (rewrite firstn_length; lia). apply nth_firstn. assumption.
Qed.
Lemma wr_length h a i d : a < length h -> length (wr h a i d) = length h.
Proof. intros L. unfold wr. rewrite !app_length, firstn_length, skipn_length. cbn [length]. lia. Qed.
Lemma wr_same h a i d : a < length h -> array (wr h a i d) a = overwrite (array h a) i d.
Proof.
  intros L. unfold array at 1, wr. rewrite app_nth2; rewrite firstn_length; [|lia].
  replace (a - min a (length h)) with 0 by lia. reflexivity.
Qed.
Lemma wr_other h a i d b : a < length h -> b <> a -> array (wr h a i d) b = array h b.
Proof.
  intros L N. unfold array, wr.
  destruct (Nat.lt_ge_cases b a).
  - rewrite app_nth1 by (rewrite firstn_length; lia). now apply nth_firstn.
  - rewrite app_nth2; rewrite firstn_length; [|lia].
    replace (b - min a (length h)) with (S (b - S a)) by lia. cbn [app nth].
    rewrite nth_skipn. f_equal. lia.
Qed.
Lemma overwrite_id l i d : i + length d <= length l -> firstn (length d) (skipn i l) = d -> overwrite l i d = l.
Proof.
  intros L E. unfold overwrite. rewrite <- E at 1.
  rewrite <- (firstn_skipn i l) at 4. f_equal.
  rewrite <- (firstn_skipn (length d) (skipn i l)) at 2. f_equal.
  rewrite skipn_skipn. f_equal. lia.
Qed.
Lemma overwrite_window l i d : i + length d <= length l -> firstn (length d) (skipn i (overwrite l i d)) = d.
Proof.
  intros L. unfold overwrite. rewrite skipn_app, firstn_length.
  rewrite skipn_all2 by (rewrite firstn_length; lia). replace (i - min i (length l)) with 0 by lia.
  cbn [app skipn]. now rewrite firstn_app, firstn_all2, Nat.sub_diag, firstn_O, app_nil_r by lia.
Qed.
(** a window that does not meet the bytes written *)
Lemma firstn_skipn_ext (l l' : bytes) o n : length l = length l' ->
  (forall k, o <= k < o + n -> nth k l 0%Z = nth k l' 0%Z) -> firstn n (skipn o l) = firstn n (skipn o l').
Proof.
  intros L E. apply nth_ext with (d := 0%Z) (d' := 0%Z).
  - rewrite !firstn_length, !skipn_length. lia.
  - intros k Hk. rewrite firstn_length, skipn_length in Hk.
    rewrite !nth_firstn, !nth_skipn by lia. apply E. lia.
Qed.
Lemma overwrite_before l i d : i + length d <= length l -> forall o n, o + n <= i ->
  firstn n (skipn o (overwrite l i d)) = firstn n (skipn o l).
Proof.
  intros L o n B. apply firstn_skipn_ext; [now apply overwrite_length|].
  intros k Hk. rewrite overwrite_nth by assumption.
  now replace (i <=? k) with false by (symmetry; apply Nat.leb_gt; lia).
Qed.

(** ** The heap *)
Lemma extends_refl h : extends h h.
Proof. exists []. now rewrite app_nil_r. Qed.
Lemma extends_trans a b c : extends a b -> extends b c -> extends a c.
Proof. intros [x ->] [y ->]. exists (x ++ y). now rewrite app_assoc. Qed.
Lemma array_ext h h' a : extends h h' -> a < length h -> array h' a = array h a.
Proof. intros [e ->] L. unfold array. now apply app_nth1. Qed.
Lemma wf_ext h h' s : extends h h' -> wf_slice h s -> wf_slice h' s.
Proof.
  intros X (A & B & C). pose proof (array_ext _ _ _ X A) as E. destruct X as [e ->]. unfold wf_slice.
  rewrite E, app_length. lia.
Qed.
Lemma rd_ext h h' s : extends h h' -> wf_slice h s -> rd h' s = rd h s.
Proof. intros X (A & B & C). unfold rd. now rewrite (array_ext _ _ _ X A). Qed.
Lemma rd_length h s : wf_slice h s -> length (rd h s) = gs_len s.
Proof. intros (A & B & C). unfold rd. rewrite firstn_length, skipn_length. lia. Qed.

Lemma alloc_ok h d x h' s : alloc h d x = (h', s) ->
  h' = h ++ [d ++ repeat 0%Z x] /\ wf_slice h' s /\ rd h' s = d /\ gs_arr s = length h /\ gs_len s = length d /\
  gs_cap s = length d + x.
Proof.
  unfold alloc. intros E. injection E as <- <-. unfold wf_slice, rd, array. cbn [gs_arr gs_off gs_len gs_cap].
  rewrite app_nth2, Nat.sub_diag by lia. cbn [nth skipn].
  rewrite app_length, app_length, repeat_length. cbn [length].
  rewrite firstn_app, firstn_all, Nat.sub_diag, firstn_O, app_nil_r. repeat split; lia.
Qed.
Lemma alloc_extends h d x h' s : alloc h d x = (h', s) -> extends h h'.
Proof. unfold alloc. intros E. injection E as <- _. now exists [d ++ repeat 0%Z x]. Qed.

Lemma reslice_wf h s lo hi t : wf_slice h s -> reslice s lo hi = Ok t -> wf_slice h t.
Proof.
  unfold reslice. destruct (Nat.leb_spec lo hi), (Nat.leb_spec hi (gs_cap s)); cbn [andb]; try discriminate.
  intros (A & B & C) E. injection E as <-. unfold wf_slice. cbn. lia.
Qed.

(** ** append *)
Lemma wr_id h a i d : a < length h -> i + length d <= length (array h a) ->
  firstn (length d) (skipn i (array h a)) = d -> wr h a i d = h.
Proof.
  intros A L E. unfold wr. rewrite overwrite_id by assumption.
  unfold array. clear -A. revert a A. induction h as [|x h IH]; intros [|a] A; cbn in *; try lia; [reflexivity|].
  f_equal. apply IH. lia.
Qed.

Lemma append_room x h s t h' u : wf_slice h s -> wf_slice h t -> gs_len s + gs_len t <= gs_cap s ->
  go_append x h s t = (h', u) ->
  h' = wr h (gs_arr s) (gs_off s + gs_len s) (rd h t) /\
  u = GS (gs_arr s) (gs_off s) (gs_len s + gs_len t) (gs_cap s) /\ wf_slice h' u /\ rd h' u = rd h s ++ rd h t.
Proof.
  intros Ws Wt L. unfold go_append. rewrite (rd_length h t Wt).
  replace (gs_len s + gs_len t <=? gs_cap s) with true by (symmetry; apply Nat.leb_le; lia).
  intros E. injection E as <- <-. split; [reflexivity|split; [reflexivity|]].
  pose proof (rd_length h t Wt) as Lt. destruct Ws as (A & B & C).
  assert (R : gs_off s + gs_len s + length (rd h t) <= length (array h (gs_arr s))) by lia.
  split.
  - unfold wf_slice. cbn [gs_arr gs_off gs_len gs_cap]. rewrite wr_length, wr_same by assumption.
    rewrite overwrite_length by assumption. lia.
  - unfold rd at 1. cbn [gs_arr gs_off gs_len]. rewrite wr_same by assumption.
    set (l := array h (gs_arr s)) in *. set (d := rd h t) in *.
    assert (SP : forall (m : bytes) a b, firstn (a + b) m = firstn a m ++ firstn b (skipn a m)).
    { clear. induction m as [|z m IH]; intros [|a] b; cbn; try reflexivity; [now rewrite firstn_nil|].
      f_equal. apply IH. }
    rewrite SP, skipn_skipn. f_equal.
    + apply overwrite_before; [assumption|lia].
    + rewrite <- Lt. rewrite (Nat.add_comm (gs_len s)). now apply overwrite_window.
Qed.
Lemma append_new x h s t h' u : wf_slice h s -> wf_slice h t -> gs_cap s < gs_len s + gs_len t ->
  go_append x h s t = (h', u) ->
  h' = h ++ [rd h s ++ rd h t ++ repeat 0%Z x] /\ gs_arr u = length h /\ wf_slice h' u /\ rd h' u = rd h s ++ rd h t.
Proof.
  intros Ws Wt L. unfold go_append. rewrite (rd_length h t Wt).
  replace (gs_len s + gs_len t <=? gs_cap s) with false by (symmetry; apply Nat.leb_gt; lia).
  intros E. apply alloc_ok in E. destruct E as (E & W & R & A & _). rewrite <- app_assoc in E. auto.
Qed.
Lemma append_value x h s t h' u : wf_slice h s -> wf_slice h t -> go_append x h s t = (h', u) ->
  wf_slice h' u /\ rd h' u = rd h s ++ rd h t /\ length h <= length h'.
Proof.
  intros Ws Wt E. destruct (Nat.le_gt_cases (gs_len s + gs_len t) (gs_cap s)) as [L|L].
  - destruct (append_room _ _ _ _ _ _ Ws Wt L E) as (-> & _ & W & R). rewrite wr_length by apply Ws. auto.
  - destruct (append_new _ _ _ _ _ _ Ws Wt L E) as (-> & _ & W & R). rewrite app_length. split; [|split]; auto; lia.
Qed.
Lemma append_harmless x h s t h' u : wf_slice h s -> wf_slice h t -> harmless h s t ->
  go_append x h s t = (h', u) -> extends h h'.
Proof.
  intros Ws Wt Hm E. destruct (Nat.le_gt_cases (gs_len s + gs_len t) (gs_cap s)) as [L|L].
  - destruct (append_room _ _ _ _ _ _ Ws Wt L E) as (-> & _).
    destruct Hm as [Hm|Hm]; [lia|]. rewrite wr_id; [apply extends_refl|apply Ws| |].
    + rewrite rd_length by assumption. destruct Ws as (A & B & C). lia.
    + rewrite rd_length by assumption. exact Hm.
  - destruct (append_new _ _ _ _ _ _ Ws Wt L E) as (-> & _). eexists. reflexivity.
Qed.
(** exactly: with room and other bytes behind, the array of [s] changes there and only there *)
Lemma append_writes x h s t h' u : wf_slice h s -> wf_slice h t -> gs_len s + gs_len t <= gs_cap s ->
  go_append x h s t = (h', u) ->
  length h' = length h /\
  (forall a, a <> gs_arr s -> array h' a = array h a) /\
  length (array h' (gs_arr s)) = length (array h (gs_arr s)) /\
  (forall k, k < gs_off s + gs_len s \/ gs_off s + gs_len s + gs_len t <= k ->
     nth k (array h' (gs_arr s)) 0%Z = nth k (array h (gs_arr s)) 0%Z) /\
  behind h' s (gs_len t) = rd h t.
Proof.
  intros Ws Wt L E. destruct (append_room _ _ _ _ _ _ Ws Wt L E) as (-> & _).
  pose proof (rd_length h t Wt) as Lt. pose proof Ws as (A & B & C).
  assert (R : gs_off s + gs_len s + length (rd h t) <= length (array h (gs_arr s))) by lia.
  split; [now apply wr_length|]. split; [intros a Ha; now apply wr_other|].
  rewrite wr_same by assumption. split; [now apply overwrite_length|]. split.
  - intros k Hk. rewrite overwrite_nth by assumption. rewrite Lt.
    destruct (Nat.leb_spec (gs_off s + gs_len s) k), (Nat.ltb_spec k (gs_off s + gs_len s + gs_len t));
      cbn [andb]; try reflexivity. lia.
  - unfold behind. rewrite wr_same by assumption. rewrite <- Lt. now apply overwrite_window.
Qed.
Lemma append_iff x h s t h' u : wf_slice h s -> wf_slice h t -> go_append x h s t = (h', u) ->
  (extends h h' <-> harmless h s t).
Proof.
  intros Ws Wt E. split; [|intros Hm; exact (append_harmless _ _ _ _ _ _ Ws Wt Hm E)].
  intros X. destruct (Nat.le_gt_cases (gs_len s + gs_len t) (gs_cap s)) as [L|L]; [right|left; assumption].
  destruct (append_writes _ _ _ _ _ _ Ws Wt L E) as (_ & _ & _ & _ & Bh).
  rewrite <- Bh. unfold behind. now rewrite (array_ext _ _ _ X (proj1 Ws)).
Qed.

(** ** Signatures *)
Lemma bind_inv {A B} (x : res A) (f : A -> res B) b : bind x f = Ok b -> exists a, x = Ok a /\ f a = Ok b.
Proof. destruct x as [a| |]; cbn [bind]; intros E; try discriminate. now exists a. Qed.

Definition good_sig (h : heap) (g : hsig) : Prop :=
  wf_slice h (hR g) /\ wf_slice h (hS g) /\ gs_len (hR g) = 32 /\ gs_len (hS g) = 32.

Lemma sig_val_ext h h' g : extends h h' -> wf_slice h (hR g) -> wf_slice h (hS g) -> sig_val h' g = sig_val h g.
Proof. intros X A B. unfold sig_val. now rewrite !(rd_ext h h'). Qed.
Lemma good_ext h h' g : extends h h' -> good_sig h g -> good_sig h' g.
Proof. intros X (A & B & C & D). repeat split; try (eapply wf_ext; eassumption); auto;
  try (eapply (wf_ext h h'); eassumption). Qed.
Lemma harmless_ext h h' s t : extends h h' -> wf_slice h s -> wf_slice h t -> harmless h s t -> harmless h' s t.
Proof.
  intros X A B [L|L]; [now left|right]. unfold behind. rewrite (array_ext h h') by (assumption || apply A).
  now rewrite (rd_ext h h').
Qed.

Lemma new_sig_h_inv r s g : new_signature_h r s = Ok g -> gs_len r = 32 /\ gs_len s = 32 /\ g = HSig r s.
Proof.
  unfold new_signature_h. destruct (Nat.eqb_spec (gs_len r) 32), (Nat.eqb_spec (gs_len s) 32); cbn [negb orb];
    intros E; try discriminate. injection E as <-. auto.
Qed.
Lemma new_sig_refines h r s : wf_slice h r -> wf_slice h s ->
  new_signature (rd h r) (rd h s) = (do g <- new_signature_h r s; Ok (sig_val h g)).
Proof.
  intros A B. unfold new_signature, new_signature_h. rewrite !rd_length by assumption.
  destruct (negb (gs_len r =? 32) || negb (gs_len s =? 32)); reflexivity.
Qed.
Lemma rd_split h b : wf_slice h b -> 32 <= gs_len b ->
  rd h (GS (gs_arr b) (gs_off b) 32 (gs_cap b)) = firstn 32 (rd h b) /\
  rd h (GS (gs_arr b) (gs_off b + 32) (gs_len b - 32) (gs_cap b - 32)) = skipn 32 (rd h b).
Proof.
  intros _ L. unfold rd. cbn [gs_arr gs_off gs_len]. set (l := array h (gs_arr b)).
  rewrite firstn_firstn. replace (min 32 (gs_len b)) with 32 by lia. split; [reflexivity|].
  rewrite skipn_firstn_comm, skipn_skipn. now rewrite (Nat.add_comm 32).
Qed.
Lemma from_bytes_h_eq b : gs_len b <= gs_cap b ->
  new_signature_from_bytes_h b =
  if gs_len b <? 64 then Err ErrNewSignatureFromBytes else
  new_signature_h (GS (gs_arr b) (gs_off b) 32 (gs_cap b)) (GS (gs_arr b) (gs_off b + 32) (gs_len b - 32) (gs_cap b - 32)).
Proof.
  intros C. unfold new_signature_from_bytes_h. destruct (Nat.ltb_spec (gs_len b) 64); [reflexivity|].
  unfold reslice. replace (32 <=? gs_cap b) with true by (symmetry; apply Nat.leb_le; lia).
  replace (32 <=? gs_len b) with true by (symmetry; apply Nat.leb_le; lia).
  replace (gs_len b <=? gs_cap b) with true by (symmetry; apply Nat.leb_le; lia).
  cbn [andb Nat.leb bind]. now rewrite Nat.add_0_r, !Nat.sub_0_r.
Qed.
Lemma from_bytes_refines h b : wf_slice h b ->
  new_signature_from_bytes (rd h b) = (do g <- new_signature_from_bytes_h b; Ok (sig_val h g)).
Proof.
  intros W. rewrite from_bytes_h_eq by apply W. unfold new_signature_from_bytes. rewrite rd_length by assumption.
  destruct (Nat.ltb_spec (gs_len b) 64) as [L|L]; [reflexivity|].
  destruct (rd_split h b W) as (A & B); [lia|]. rewrite <- A, <- B.
  apply new_sig_refines; unfold wf_slice in *; cbn [gs_arr gs_off gs_len gs_cap]; lia.
Qed.
Lemma from_bytes_inv h b g : wf_slice h b -> new_signature_from_bytes_h b = Ok g ->
  gs_len b = 64 /\ hR g = GS (gs_arr b) (gs_off b) 32 (gs_cap b) /\
  hS g = GS (gs_arr b) (gs_off b + 32) 32 (gs_cap b - 32) /\ good_sig h g /\ harmless h (hR g) (hS g).
Proof.
  intros W. rewrite from_bytes_h_eq by apply W. destruct (Nat.ltb_spec (gs_len b) 64) as [L|L]; [discriminate|].
  intros E. apply new_sig_h_inv in E. destruct E as (A & B & ->). cbn [gs_len] in A, B.
  assert (gs_len b = 64) as K by lia. cbn [hR hS]. rewrite K. split; [reflexivity|].
  split; [reflexivity|split; [reflexivity|]]. split.
  - unfold good_sig, wf_slice in *. cbn [hR hS gs_arr gs_off gs_len gs_cap]. lia.
  - right. reflexivity.
Qed.

Lemma canonical_inv h g h' c : good_sig h g -> make_signature_canonical_h h g = Ok (h', c) ->
  exists s, alloc h s 0 = (h', hS c) /\ make_signature_canonical (sig_val h g) = Ok (Sig (rd h (hR g)) s) /\
  hR c = hR g /\ length s = 32 /\ extends h h' /\ good_sig h' c /\ sig_val h' c = Sig (rd h (hR g)) s.
Proof.
  intros (A & B & C & D) E. unfold make_signature_canonical_h in E.
  apply bind_inv in E. destruct E as (e & E1 & E). apply bind_inv in E. destruct E as (s & E2 & E).
  destruct (alloc h s 0) as (h1, sl) eqn:Ea. apply bind_inv in E. destruct E as (c' & E3 & E).
  injection E as -> ->. apply new_sig_h_inv in E3. destruct E3 as (L1 & L2 & ->).
  pose proof (alloc_extends _ _ _ _ _ Ea) as X.
  pose proof (alloc_ok _ _ _ _ _ Ea) as (_ & Wl & Rl & _ & Ll & _).
  exists s. cbn [hR hS]. split; [exact Ea|]. rewrite L2 in Ll. symmetry in Ll.
  split. { unfold make_signature_canonical, sig_val. cbn [sR sS]. rewrite E1. cbn [bind]. rewrite E2. cbn [bind].
    unfold new_signature. rewrite rd_length by assumption. rewrite C, Ll. reflexivity. }
  split; [reflexivity|split; [exact Ll|split; [exact X|split]]].
  - unfold good_sig. cbn [hR hS]. split; [now apply (wf_ext h)|]. split; [assumption|]. split; assumption.
  - unfold sig_val. cbn [hR hS]. now rewrite Rl, (rd_ext h h').
Qed.
Lemma new_sig_inv r s g : new_signature r s = Ok g -> length r = 32 /\ length s = 32 /\ g = Sig r s.
Proof.
  unfold new_signature. destruct (Nat.eqb_spec (length r) 32), (Nat.eqb_spec (length s) 32); cbn [negb orb];
    intros E; try discriminate. injection E as <-. auto.
Qed.
Ltac binv E := let Q := fresh "Q" in apply bind_inv in E; destruct E as (? & Q & E); cbv beta zeta in E.
Lemma sign_lengths H kp m g : sign H kp m = Ok g -> length (sR g) = 32 /\ length (sS g) = 32.
Proof.
  unfold sign. destruct (negb (has_private_key kp)); [discriminate|].
  intros E. binv E.
  match type of E with (if ?b then _ else _) = _ => destruct b end; [discriminate|].
  do 10 binv E.
  match type of E with (if ?b then _ else _) = _ => destruct b end; [discriminate|]. injection E as ->.
  match goal with Q : new_signature _ _ = Ok g |- _ => apply new_sig_inv in Q; destruct Q as (A & B & ->) end. auto.
Qed.
Lemma bigint_lengths r s g : new_signature_from_bigint r s = Ok g -> length (sR g) = 32 /\ length (sS g) = 32.
Proof.
  unfold new_signature_from_bigint. destruct r, s; try discriminate.
  match goal with |- (if ?b then _ else _) = _ -> _ => destruct b end; [discriminate|].
  intros Q. apply new_sig_inv in Q; destruct Q as (A & B & ->). auto.
Qed.
(** two fresh arrays *)
Lemma fresh_sig h (R S : bytes) h1 a h2 b : length R = 32 -> length S = 32 ->
  alloc h R 0 = (h1, a) -> alloc h1 S 0 = (h2, b) ->
  extends h h2 /\ good_sig h2 (HSig a b) /\ sig_val h2 (HSig a b) = Sig R S /\ gs_cap a = 32 /\
  gs_arr a = length h /\ gs_arr b = Datatypes.S (length h).
Proof.
  intros LR LS Ea Eb. pose proof (alloc_extends _ _ _ _ _ Ea) as X1. pose proof (alloc_extends _ _ _ _ _ Eb) as X2.
  apply alloc_ok in Ea. apply alloc_ok in Eb.
  destruct Ea as (E1 & W1 & R1 & A1 & L1 & C1). destruct Eb as (E2 & W2 & R2 & A2 & L2 & C2).
  split; [eapply extends_trans; eassumption|]. split.
  { unfold good_sig. cbn [hR hS]. split; [now apply (wf_ext h1)|]. split; [assumption|]. lia. }
  split. { unfold sig_val. cbn [hR hS]. rewrite R2, (rd_ext h1 h2) by assumption. now rewrite R1. }
  split; [lia|]. split; [assumption|]. rewrite A2, E1, app_length. cbn [length]. lia.
Qed.

(** ** Histories *)
Definition inv (w : world) : Prop :=
  Forall (wf_slice (w_heap w)) (w_slices w) /\ Forall (fun g => good_sig (w_heap w) g /\ harmless (w_heap w) (hR g) (hS g)) (w_sigs w).

Lemma inv_ext h h' sl sg : extends h h' -> inv (World h sl sg) -> inv (World h' sl sg).
Proof.
  intros X (A & B). split; cbn in *.
  - eapply Forall_impl; [|exact A]. intros s. now apply wf_ext.
  - eapply Forall_impl; [|exact B]. intros g (G & K). split; [now apply (good_ext h)|].
    destruct G as (G1 & G2 & _). now apply (harmless_ext h).
Qed.
Lemma inv_slice w h' s : inv w -> extends (w_heap w) h' -> wf_slice h' s -> inv (add_slice w h' s).
Proof.
  intros I X W. destruct w as [h sl sg]. cbn in X. destruct (inv_ext _ _ _ _ X I) as (A & B).
  split; cbn in *; [|assumption]. apply Forall_app. split; [assumption|]. now constructor.
Qed.
Lemma inv_sig w h' g : inv w -> extends (w_heap w) h' -> good_sig h' g -> harmless h' (hR g) (hS g) -> inv (add_sig w h' g).
Proof.
  intros I X W K. destruct w as [h sl sg]. cbn in X. destruct (inv_ext _ _ _ _ X I) as (A & B).
  split; cbn in *; [assumption|]. apply Forall_app. split; [assumption|]. constructor; auto.
Qed.
Lemma tight_harmless h g : good_sig h g -> gs_cap (hR g) < 64 -> harmless h (hR g) (hS g).
Proof. intros (_ & _ & A & B) C. left. lia. Qed.

(** the worlds only grow *)
Definition grows (w w' : world) : Prop :=
  extends (w_heap w) (w_heap w') /\ (exists a, w_slices w' = w_slices w ++ a) /\ (exists b, w_sigs w' = w_sigs w ++ b).
Lemma grows_refl w : grows w w.
Proof. split; [apply extends_refl|]. split; exists []; now rewrite app_nil_r. Qed.
Lemma grows_trans a b c : grows a b -> grows b c -> grows a c.
Proof.
  intros (X & (s1 & A) & (g1 & B)) (Y & (s2 & C) & (g2 & D)). split; [eapply extends_trans; eassumption|].
  split; eexists; [rewrite C, A|rewrite D, B]; now rewrite <- app_assoc.
Qed.
Lemma grows_slice w h' s : extends (w_heap w) h' -> grows w (add_slice w h' s).
Proof. intros X. split; [exact X|]. split; [exists [s]; reflexivity|exists []; cbn; now rewrite app_nil_r]. Qed.
Lemma grows_sig w h' s : extends (w_heap w) h' -> grows w (add_sig w h' s).
Proof. intros X. split; [exact X|]. split; [exists []; cbn; now rewrite app_nil_r|exists [s]; reflexivity]. Qed.

Lemma step_safe H w o w' : inv w -> safe_op w o -> step H w o = Some w' -> inv w' /\ grows w w'.
Proof.
  intros I SF. pose proof I as (IS & IG).
  assert (SL : forall i s, nth_error (w_slices w) i = Some s -> wf_slice (w_heap w) s).
  { intros i s E. apply nth_error_In in E. rewrite Forall_forall in IS. auto. }
  assert (SG : forall i g, nth_error (w_sigs w) i = Some g ->
     good_sig (w_heap w) g /\ harmless (w_heap w) (hR g) (hS g)).
  { intros i s E. apply nth_error_In in E. rewrite Forall_forall in IG. apply IG. assumption. }
  assert (FR : forall g r, (forall v, r = Ok v -> length (sR v) = 32 /\ length (sS v) = 32) ->
     (do g <- r; let (h1, a) := alloc (w_heap w) (sR g) 0 in let (h2, b) := alloc h1 (sS g) 0 in Ok (h2, HSig a b)) = g ->
     got_sig w g = Some w' -> inv w' /\ grows w w').
  { intros g r L <- E. destruct r as [v|e|]; cbn [bind] in E.
    - destruct (L v eq_refl) as (L1 & L2). destruct (alloc (w_heap w) (sR v) 0) as (h1, a) eqn:Ea.
      destruct (alloc h1 (sS v) 0) as (h2, b) eqn:Eb. cbn in E. injection E as <-.
      destruct (fresh_sig _ _ _ _ _ _ _ L1 L2 Ea Eb) as (X & G & _ & C & _).
      split; [|now apply grows_sig]. apply inv_sig; try assumption. apply tight_harmless; [assumption|]. cbn [hR]. lia.
    - cbn in E. injection E as <-. split; [assumption|apply grows_refl].
    - discriminate. }
  unfold step. destruct o as [d x|i lo hi|i j x|i j|i|r s|kp i|kp i g|g x|g x|g].
  - destruct (alloc (w_heap w) d x) as (h', s) eqn:Ea. intros E. injection E as <-.
    pose proof (alloc_extends _ _ _ _ _ Ea) as X. apply alloc_ok in Ea. destruct Ea as (_ & W & _).
    split; [now apply inv_slice|now apply grows_slice].
  - destruct (nth_error (w_slices w) i) as [s|] eqn:Es; [|discriminate].
    destruct (reslice s lo hi) as [t| |] eqn:Er; try discriminate. intros E. injection E as <-.
    apply (reslice_wf (w_heap w)) in Er; [|now apply (SL i)].
    split; [apply inv_slice|apply grows_slice]; try assumption; apply extends_refl.
  - destruct (nth_error (w_slices w) i) as [s|] eqn:Es; [|discriminate].
    destruct (nth_error (w_slices w) j) as [t|] eqn:Et; [|discriminate].
    destruct (go_append x (w_heap w) s t) as (h', u) eqn:Ea. intros E. injection E as <-.
    assert (X : extends (w_heap w) h').
    { apply (append_harmless x (w_heap w) s t h' u); eauto. }
    destruct (append_value x (w_heap w) s t h' u) as (W & _); eauto.
    split; [now apply inv_slice|now apply grows_slice].
  - destruct (nth_error (w_slices w) i) as [s|] eqn:Es; [|discriminate].
    destruct (nth_error (w_slices w) j) as [t|] eqn:Et; [|discriminate].
    destruct (new_signature_h s t) as [g|e|] eqn:En; cbn [bind got_sig]; intros E; try discriminate;
      injection E as <-; [|split; [assumption|apply grows_refl]].
    apply new_sig_h_inv in En. destruct En as (L1 & L2 & ->).
    split; [|apply grows_sig, extends_refl]. apply inv_sig; [assumption|apply extends_refl| |].
    + unfold good_sig. cbn [hR hS]. eauto 6.
    + cbn [hR hS]. now apply SF.
  - destruct (nth_error (w_slices w) i) as [s|] eqn:Es; [|discriminate].
    destruct (new_signature_from_bytes_h s) as [g|e|] eqn:En; cbn [bind got_sig]; intros E; try discriminate;
      injection E as <-; [|split; [assumption|apply grows_refl]].
    apply (from_bytes_inv (w_heap w)) in En; [|now apply (SL i)]. destruct En as (_ & _ & _ & G & K).
    split; [|apply grows_sig, extends_refl]. apply inv_sig; try assumption. apply extends_refl.
  - apply FR with (r := new_signature_from_bigint r s); [apply bigint_lengths|reflexivity].
  - destruct (nth_error (w_slices w) i) as [s|] eqn:Es; [|discriminate].
    apply FR with (r := sign H kp (rd (w_heap w) s)); [intros v; apply sign_lengths|reflexivity].
  - destruct (nth_error (w_slices w) i) as [s|] eqn:Es; [|discriminate].
    destruct (nth_error (w_sigs w) g) as [v|] eqn:Ev; [|discriminate].
    destruct (verify_h H (w_heap w) kp s v); try discriminate. intros E. injection E as <-.
    split; [assumption|apply grows_refl].
  - destruct (nth_error (w_sigs w) g) as [v|] eqn:Ev; [|discriminate].
    destruct (bytes_h x (w_heap w) v) as (h', u) eqn:Ea. intros E. injection E as <-.
    destruct (SG g v Ev) as ((G1 & G2 & _) & K).
    pose proof (append_harmless _ _ _ _ _ _ G1 G2 K Ea) as X.
    destruct (append_value _ _ _ _ _ _ G1 G2 Ea) as (W & _).
    split; [now apply inv_slice|now apply grows_slice].
  - destruct (nth_error (w_sigs w) g) as [v|] eqn:Ev; [|discriminate].
    unfold string_h. destruct (bytes_h x (w_heap w) v) as (h', u) eqn:Ea. cbn [fst]. intros E. injection E as <-.
    destruct (SG g v Ev) as ((G1 & G2 & _) & K).
    pose proof (append_harmless _ _ _ _ _ _ G1 G2 K Ea) as X.
    destruct w as [h sl sg]. cbn in *. split; [now apply (inv_ext h)|].
    split; [exact X|]. split; exists []; cbn; now rewrite app_nil_r.
  - destruct (nth_error (w_sigs w) g) as [v|] eqn:Ev; [|discriminate].
    destruct (SG g v Ev) as (G & K).
    destruct (make_signature_canonical_h (w_heap w) v) as [(h', c)|e|] eqn:Ec; cbn [got_sig]; intros E; try discriminate;
      injection E as <-; [|split; [assumption|apply grows_refl]].
    destruct (canonical_inv _ _ _ _ G Ec) as (s & _ & Ev2 & ER & Ls & X & Gc & Vc).
    split; [|now apply grows_sig]. apply inv_sig; try assumption.
    destruct (SF v Ev) as [T|(Wb & Q)].
    + left. destruct Gc as (_ & _ & C1 & C2). rewrite ER in *. lia.
    + destruct K as [K|K]; [left; destruct Gc as (_ & _ & C1 & C2); destruct G as (_ & _ & C3 & C4); rewrite ER; lia|].
      right. rewrite ER.
      assert (EQ : forall a b c d, @Ok signature (Sig a b) = Ok (Sig c d) -> b = d) by (intros; congruence).
      assert (Es : s = rd (w_heap w) (hS v)).
      { destruct G as (G1 & G2 & G3 & G4). unfold sig_val in Ev2.
        rewrite make_canonical_32 in Ev2; [|assumption|rewrite rd_length; assumption|rewrite rd_length; assumption].
        apply EQ in Ev2. rewrite <- Ev2. rewrite Z.mod_small by (split; [apply le_val_bound; assumption|assumption]).
rewrite <- G4 at 1. rewrite <- (rd_length (w_heap w) (hS v)) at 1 by assumption. now apply le_val_inv. }
      destruct Gc as (C1 & C2 & C3 & C4). destruct G as (G1 & G2 & G3 & G4).
      rewrite C4. unfold sig_val in Vc. injection Vc as _ Vs. rewrite Vs, Es, <- K, G4.
      unfold behind. now rewrite (array_ext (w_heap w) h') by (assumption || apply G1).
Qed.
Lemma run_safe H os : forall w w', inv w -> safe_history H w os -> run H w os = Some w' -> inv w' /\ grows w w'.
Proof.
  induction os as [|o os IH]; intros w w' I SF E; cbn in E.
  - injection E as <-. split; [assumption|apply grows_refl].
  - destruct SF as (S1 & S2). destruct (step H w o) as [w1|] eqn:E1; [|discriminate].
    destruct (step_safe _ _ _ _ I S1 E1) as (I1 & G1).
    destruct (IH _ _ I1 (S2 _ eq_refl) E) as (I2 & G2). split; [assumption|eapply grows_trans; eassumption].
Qed.
Lemma grows_view w w' : inv w -> grows w w' -> same_view w w'.
Proof.
  intros (IS & IG) (X & (a & A) & (b & B)). rewrite Forall_forall in IS, IG. split.
  - intros i s E. split; [rewrite A, nth_error_app1; [assumption|]; apply nth_error_Some; congruence|].
    apply rd_ext; [assumption|]. apply nth_error_In in E. auto.
  - intros i g E. split; [rewrite B, nth_error_app1; [assumption|]; apply nth_error_Some; congruence|].
    apply nth_error_In in E. destruct (IG _ E) as ((G1 & G2 & _) & _). now apply sig_val_ext.
Qed.
Lemma inv_empty : inv empty_world.
Proof. split; constructor. Qed.
Lemma run_app H os1 : forall w os2, run H w (os1 ++ os2) =
  match run H w os1 with Some w' => run H w' os2 | None => None end.
Proof. induction os1 as [|o os IH]; intros w os2; cbn; [reflexivity|]. destruct (step H w o); [apply IH|reflexivity]. Qed.
Lemma safe_app H os1 : forall w os2, safe_history H w (os1 ++ os2) ->
  safe_history H w os1 /\ (forall w', run H w os1 = Some w' -> safe_history H w' os2).
Proof.
  induction os1 as [|o os IH]; intros w os2 S; cbn in *.
  - split; [exact I|]. intros w' E. injection E as <-. assumption.
  - destruct S as (S1 & S2). split.
    + split; [assumption|]. intros w' E. now apply (IH w' os2), S2.
    + intros w'. destruct (step H w o) as [w1|] eqn:E1; [|discriminate]. intros R. now apply (IH w1 os2 (S2 _ eq_refl)).
Qed.
(** the history theorem: what was seen after [os1] is seen after [os1 ++ os2] *)
Lemma history H os1 os2 w1 w2 : safe_history H empty_world (os1 ++ os2) ->
  run H empty_world os1 = Some w1 -> run H w1 os2 = Some w2 -> same_view w1 w2.
Proof.
  intros S E1 E2. apply safe_app in S. destruct S as (Sa & Sb).
  destruct (run_safe _ _ _ _ inv_empty Sa E1) as (I1 & _).
  destruct (run_safe _ _ _ _ I1 (Sb _ E1) E2) as (_ & G). now apply grows_view.
Qed.
