(** Lemmas behind [PropAlias]. *)
From Coq Require Import List ZArith Lia Bool Arith.
From Verif Require Import GoBase FieldSpec ByteLemmas FieldModel ScalarModel GroupModel ApiModel ApiSpec
  PropSigLemmas VerifyProofs AliasModel AliasSpec AliasProofs.
Import ListNotations.
Open Scope nat_scope.

Lemma bytes_value x h g h' u : wf_slice h (hR g) -> wf_slice h (hS g) -> bytes_h x h g = (h', u) ->
  rd h' u = signature_bytes (sig_val h g).
Proof. intros A B E. apply (append_value _ _ _ _ _ _ A B E). Qed.
Lemma string_value x h g h' t : wf_slice h (hR g) -> wf_slice h (hS g) -> string_h x h g = (h', t) ->
  t = signature_string (sig_val h g).
Proof.
  intros A B. unfold string_h. destruct (bytes_h x h g) as (h1, u) eqn:E. intros F. injection F as <- <-.
  rewrite (bytes_value _ _ _ _ _ A B E). reflexivity.
Qed.
Lemma bytes_tight x h g h' u : wf_slice h (hR g) -> wf_slice h (hS g) -> bytes_h x h g = (h', u) ->
  gs_cap (hR g) < gs_len (hR g) + gs_len (hS g) ->
  extends h h' /\ gs_arr u = length h /\ (forall s, wf_slice h s -> rd h' s = rd h s).
Proof.
  intros A B E L. destruct (append_new _ _ _ _ _ _ A B L E) as (X & U & _).
  assert (extends h h') by (eexists; exact X). split; [assumption|split; [assumption|]].
  intros s W. now apply rd_ext.
Qed.
Lemma bytes_room x h g h' u : wf_slice h (hR g) -> wf_slice h (hS g) -> bytes_h x h g = (h', u) ->
  gs_len (hR g) + gs_len (hS g) <= gs_cap (hR g) ->
  let e := gs_off (hR g) + gs_len (hR g) in
  gs_arr u = gs_arr (hR g) /\
  (forall a, a <> gs_arr (hR g) -> array h' a = array h a) /\
  (forall k, k < e \/ e + gs_len (hS g) <= k ->
     nth k (array h' (gs_arr (hR g))) 0%Z = nth k (array h (gs_arr (hR g))) 0%Z) /\
  behind h' (hR g) (gs_len (hS g)) = rd h (hS g).
Proof.
  intros A B E L e. destruct (append_room _ _ _ _ _ _ A B L E) as (_ & -> & _).
  destruct (append_writes _ _ _ _ _ _ A B L E) as (_ & P & _ & Q & R). auto.
Qed.
Lemma bytes_iff x h g h' u : wf_slice h (hR g) -> wf_slice h (hS g) -> bytes_h x h g = (h', u) ->
  (extends h h' <-> harmless h (hR g) (hS g)).
Proof. intros A B E. exact (append_iff _ _ _ _ _ _ A B E). Qed.

Lemma from_bytes_shares h b g : wf_slice h b -> new_signature_from_bytes_h b = Ok g ->
  rd h b = signature_bytes (sig_val h g) /\ (forall h', rd h' b = signature_bytes (sig_val h' g)) /\
  harmless h (hR g) (hS g) /\
  (forall x h' u, bytes_h x h g = (h', u) -> h' = h /\ u = b).
Proof.
  intros W E. destruct (from_bytes_inv _ _ _ W E) as (L & ER & ES & G & K).
  assert (AL : forall h', rd h' b = signature_bytes (sig_val h' g)).
  { intros h'. unfold signature_bytes, sig_val. rewrite ER, ES. cbn [sR sS]. unfold rd. cbn [gs_arr gs_off gs_len].
    rewrite L. set (l := array h' (gs_arr b)).
    change 64 with (32 + 32). rewrite (Nat.add_comm (gs_off b) 32), <- skipn_skipn.
    set (m := skipn (gs_off b) l). clearbody m. clear.
    rewrite <- (firstn_skipn 32 (firstn (32 + 32) m)). rewrite firstn_firstn. f_equal.
    rewrite skipn_firstn_comm. reflexivity. }
  split; [apply AL|split; [exact AL|split; [exact K|]]].
  intros x h' u B. destruct G as (G1 & G2 & G3 & G4).
  assert (RM : gs_len (hR g) + gs_len (hS g) <= gs_cap (hR g)).
  { rewrite G3, G4, ER. cbn [gs_cap]. destruct W as (_ & W & _). lia. }
  destruct (append_room _ _ _ _ _ _ G1 G2 RM B) as (-> & -> & _). split.
  - apply wr_id; [apply G1| |].
    + rewrite rd_length by assumption. destruct G1 as (_ & _ & G1). lia.
    + rewrite rd_length by assumption. destruct K as [K|K]; [lia|exact K].
  - rewrite G3, G4, ER. cbn [gs_arr gs_off gs_cap]. destruct b as [a o n c]. cbn in *. subst n. reflexivity.
Qed.

(** the constructor keeps the program's own memory *)
Lemma constructor_shares r s g h' : new_signature_h r s = Ok g -> sig_val h' g = Sig (rd h' r) (rd h' s).
Proof. intros E. apply new_sig_h_inv in E. destruct E as (_ & _ & ->). reflexivity. Qed.

Lemma sign_fresh H h kp m h' g : sign_h H h kp m = Ok (h', g) ->
  extends h h' /\ sign H kp (rd h m) = Ok (sig_val h' g) /\ good_sig h' g /\
  length h <= gs_arr (hR g) /\ length h <= gs_arr (hS g) /\ gs_arr (hR g) <> gs_arr (hS g) /\ gs_cap (hR g) = 32.
Proof.
  intros E. unfold sign_h in E. apply bind_inv in E. destruct E as (v & Ev & E).
  destruct (sign_lengths _ _ _ _ Ev) as (L1 & L2).
  destruct (alloc h (sR v) 0) as (h1, a) eqn:Ea. destruct (alloc h1 (sS v) 0) as (h2, b) eqn:Eb.
  injection E as <- <-. destruct (fresh_sig _ _ _ _ _ _ _ L1 L2 Ea Eb) as (X & G & V & C & A1 & A2).
  split; [assumption|]. rewrite Ev, V. destruct v as [R S]. cbn [sR sS]. cbn [hR hS].
  split; [reflexivity|]. split; [assumption|]. rewrite A1, A2. repeat split; lia.
Qed.
Lemma sign_h_err H h kp m e : sign_h H h kp m = Err e <-> sign H kp (rd h m) = Err e.
Proof.
  unfold sign_h. destruct (sign H kp (rd h m)) as [v|e'|]; cbn [bind].
  - split; [|discriminate]. destruct (alloc h (sR v) 0) as (h1, a). destruct (alloc h1 (sS v) 0). discriminate.
  - split; congruence.
  - split; discriminate.
Qed.

Lemma canonical_refines h g : good_sig h g ->
  make_signature_canonical (sig_val h g) =
  (do r <- make_signature_canonical_h h g; Ok (sig_val (fst r) (snd r))).
Proof.
  intros G. destruct (make_signature_canonical_h h g) as [(h', c)|e|] eqn:E; cbn [bind fst snd].
  - destruct (canonical_inv _ _ _ _ G E) as (s & _ & V & _ & _ & _ & _ & Vc). now rewrite Vc.
  - unfold make_signature_canonical_h in E. unfold make_signature_canonical. cbn [sR sS sig_val].
    destruct (new_efe _) as [f| |]; cbn [bind] in *; try (exact E || congruence).
    destruct (sc_modQ f) as [t| |]; cbn [bind] in *; try congruence.
    destruct (alloc h t 0) as (h1, a) eqn:Ea. pose proof (alloc_extends _ _ _ _ _ Ea) as X.
    apply alloc_ok in Ea. destruct Ea as (_ & Wa & Ra & _ & La & _).
    destruct (new_signature_h (hR g) a) as [c| |] eqn:En; cbn [bind] in E; try discriminate.
    destruct G as (G1 & _). rewrite <- (rd_ext h h1) by assumption. rewrite <- Ra at 1.
    rewrite (new_sig_refines h1 (hR g) a) by (try assumption; now apply (wf_ext h)).
    rewrite En. cbn [bind]. congruence.
  - unfold make_signature_canonical_h in E. unfold make_signature_canonical. cbn [sR sS sig_val].
    destruct (new_efe _) as [f| |]; cbn [bind] in *; try (exact E || congruence).
    destruct (sc_modQ f) as [t| |]; cbn [bind] in *; try congruence.
    destruct (alloc h t 0) as (h1, a) eqn:Ea.
    unfold new_signature_h in E. destruct (negb _ || negb _); cbn [bind] in E; discriminate.
Qed.
Lemma canonical_ok h g : good_sig h g -> wf_bytes (rd h (hS g)) -> exists h' c,
  make_signature_canonical_h h g = Ok (h', c) /\ hR c = hR g /\ extends h h' /\ good_sig h' c /\
  sig_val h' c = Sig (rd h (hR g)) (le_bytes 32 (le_val (rd h (hS g)) mod q25519)).
Proof.
  intros G W. pose proof G as (G1 & G2 & G3 & G4).
  pose proof (canonical_refines h g G) as R. unfold sig_val at 1 in R.
  rewrite make_canonical_32 in R by (try assumption; now rewrite rd_length).
  destruct (make_signature_canonical_h h g) as [(h', c)|e|] eqn:E; cbn [bind fst snd] in R; try discriminate.
  exists h', c. destruct (canonical_inv _ _ _ _ G E) as (s & _ & _ & ER & _ & X & Gc & _).
  assert (Q : forall (a b : signature), Ok a = Ok b -> b = a) by (intros; congruence).
  split; [reflexivity|]. split; [exact ER|]. split; [exact X|]. split; [exact Gc|]. now apply Q.
Qed.

(** The trap: decode, canonicalize, ask the canonical one for its bytes - the first one changes. *)
Lemma trap x h b g h1 c h2 u : wf_slice h b -> wf_bytes (rd h b) ->
  new_signature_from_bytes_h b = Ok g -> make_signature_canonical_h h g = Ok (h1, c) -> bytes_h x h1 c = (h2, u) ->
  let S' := le_bytes 32 (le_val (sS (sig_val h g)) mod q25519) in
  sig_val h1 g = sig_val h g /\ rd h1 b = rd h b /\
  sig_val h2 g = Sig (sR (sig_val h g)) S' /\ rd h2 b = sR (sig_val h g) ++ S'.
Proof.
  intros W Wb E1 E2 E3 S'.
  destruct (from_bytes_inv _ _ _ W E1) as (L & ER & ES & G & K).
  destruct (from_bytes_shares _ _ _ W E1) as (V & AL & _ & _).
  assert (WS : wf_bytes (rd h (hS g))).
  { unfold signature_bytes, sig_val in V. cbn [sR sS] in V. rewrite V in Wb. now apply Forall_app in Wb. }
  destruct (canonical_ok h g G WS) as (h1' & c' & E2' & RC & X & Gc & Vc).
  rewrite E2 in E2'. assert (Q : forall (p p' : heap * hsig), Ok p = Ok p' -> p = p') by (intros; congruence).
  apply Q in E2'. apply pair_equal_spec in E2'. destruct E2' as (<- & <-). clear Q.
  pose proof G as (G1 & G2 & G3 & G4). pose proof Gc as (C1 & C2 & C3 & C4).
  split; [now apply sig_val_ext|]. split; [now apply rd_ext|].
  assert (RM : gs_len (hR c) + gs_len (hS c) <= gs_cap (hR c)).
  { rewrite C3, C4, RC, ER. cbn [gs_cap]. destruct W as (_ & W & _). lia. }
  destruct (append_room _ _ _ _ _ _ C1 C2 RM E3) as (_ & _ & _ & Ru).
  destruct (append_writes _ _ _ _ _ _ C1 C2 RM E3) as (_ & _ & LA & KK & BH).
  assert (VS : rd h1 (hS c) = S').
  { change (rd h1 (hS c)) with (sS (sig_val h1 c)). rewrite Vc. reflexivity. }
  assert (VR : rd h2 (hR g) = rd h (hR g)).
  { rewrite <- (rd_ext h h1 (hR g)) by assumption. unfold rd. rewrite RC in *.
    apply firstn_skipn_ext; [exact LA|]. intros k Hk. apply KK. lia. }
  assert (VS2 : rd h2 (hS g) = S').
  { rewrite <- VS, <- BH. rewrite RC, C4. unfold behind, rd. rewrite ER, ES. cbn [gs_arr gs_off gs_len]. reflexivity. }
  assert (VG : sig_val h2 g = Sig (sR (sig_val h g)) S').
  { unfold sig_val. cbn [sR]. now rewrite VR, VS2. }
  split; [exact VG|]. rewrite AL, VG. reflexivity.
Qed.
(** ... and every call in it succeeds, for every 64 bytes *)
Lemma trap_possible h b : wf_slice h b -> gs_len b = 64 -> wf_bytes (rd h b) -> exists g h1 c,
  new_signature_from_bytes_h b = Ok g /\ make_signature_canonical_h h g = Ok (h1, c).
Proof.
  intros W L Wb. rewrite from_bytes_h_eq by apply W. rewrite L. cbn [Nat.ltb Nat.leb].
  unfold new_signature_h. cbn [gs_len]. change (64 - 32) with 32. cbn [Nat.eqb negb orb].
  eexists. edestruct canonical_ok as (h1 & c & E & _); [| |eexists _, _; split; [reflexivity|exact E]].
  - unfold good_sig, wf_slice in *. cbn [hR hS gs_arr gs_off gs_len gs_cap]. lia.
  - cbn [hS]. destruct (rd_split h b W) as (_ & B); [lia|]. rewrite L in B. change (64 - 32) with 32 in B. rewrite B.
    apply Forall_forall. intros z Hz. unfold wf_bytes in Wb. rewrite Forall_forall in Wb. apply Wb.
    rewrite <- (firstn_skipn 32 (rd h b)). apply in_or_app. now right.
Qed.
(** an instance where it matters: S = q + 1 *)
Definition trap_bytes : bytes := repeat 7%Z 32 ++ le_bytes 32 (q25519 + 1).
Lemma trap_changes : exists h b g h1 c h2 u, wf_slice h b /\ wf_bytes (rd h b) /\
  new_signature_from_bytes_h b = Ok g /\ make_signature_canonical_h h g = Ok (h1, c) /\ bytes_h 0 h1 c = (h2, u) /\
  sS (sig_val h g) = le_bytes 32 (q25519 + 1) /\ sS (sig_val h2 g) = le_bytes 32 1 /\ sig_val h2 g <> sig_val h g.
Proof.
  destruct (alloc [] trap_bytes 0) as (h, b) eqn:Ea.
  apply alloc_ok in Ea. destruct Ea as (_ & W & R & _ & L & _).
  assert (Wb : wf_bytes (rd h b)).
  { rewrite R. apply Forall_app. split; [|apply le_bytes_wf]. apply Forall_forall. intros z Hz.
    apply repeat_spec in Hz. subst z. unfold is_byte. lia. }
  change (length trap_bytes) with 64 in L.
  destruct (trap_possible h b W L Wb) as (g & h1 & c & E1 & E2).
  destruct (bytes_h 0 h1 c) as (h2, u) eqn:E3.
  exists h, b, g, h1, c, h2, u. split; [assumption|]. split; [assumption|]. split; [assumption|]. split; [assumption|].
  split; [assumption|].
  destruct (trap 0 h b g h1 c h2 u W Wb E1 E2 E3) as (_ & _ & V & _).
  destruct (from_bytes_inv _ _ _ W E1) as (_ & ER & ES & _ & _).
  destruct (rd_split h b W) as (_ & B); [lia|]. rewrite L in B. change (64 - 32) with 32 in B.
  assert (SG : sS (sig_val h g) = le_bytes 32 (q25519 + 1)).
  { unfold sig_val. cbn [sS]. rewrite ES, B, R. reflexivity. }
  split; [exact SG|]. rewrite V, SG. cbn [sS].
  replace (le_val (le_bytes 32 (q25519 + 1)) mod q25519)%Z with 1%Z by (vm_compute; reflexivity).
  split; [reflexivity|]. intros E. apply (f_equal sS) in E. cbn [sS] in E. rewrite SG in E. vm_compute in E. discriminate.
Qed.

(** the other one: a buffer, its first half as R of a signature with another S *)
Lemma buffer_overwritten x h b s h' u g : wf_slice h b -> gs_len b = 64 -> wf_slice h s -> gs_len s = 32 ->
  gs_arr s <> gs_arr b -> forall r, reslice b 0 32 = Ok r -> new_signature_h r s = Ok g -> bytes_h x h g = (h', u) ->
  rd h' b = firstn 32 (rd h b) ++ rd h s.
Proof.
  intros W L Ws Ls N r Er En E. apply new_sig_h_inv in En. destruct En as (Lr & _ & ->).
  pose proof (reslice_wf _ _ _ _ _ W Er) as Wr.
  unfold reslice in Er. destruct ((0 <=? 32) && (32 <=? gs_cap b)); [|discriminate]. injection Er as <-.
  assert (RM : 32 + gs_len s <= gs_cap b - 0) by (destruct W as (_ & W & _); lia).
  destruct (append_room _ _ _ _ _ _ Wr Ws RM E) as (_ & -> & _ & R).
  cbn [hR hS gs_arr gs_off gs_len gs_cap] in R. rewrite Ls in R.
  replace (rd h' b) with (rd h' (GS (gs_arr b) (gs_off b + 0) (32 + 32) (gs_cap b - 0))).
  - unfold rd at 1. unfold rd at 1 in R. cbn [gs_arr gs_off gs_len] in *. rewrite R. f_equal.
    destruct (rd_split h b W) as (A & _); [lia|]. rewrite <- A. unfold rd. cbn [gs_arr gs_off gs_len].
    now rewrite Nat.add_0_r.
  - unfold rd. cbn [gs_arr gs_off gs_len]. now rewrite L, Nat.add_0_r.
Qed.

(** a history with most calls in it *)
Definition ex_ops : list op :=
  [OMake (repeat 7%Z 32 ++ le_bytes 32 5) 0; OFromBytes 0; OFromBigInt (Some 5%Z) (Some 6%Z); OBytes 0 0;
   OBytes 1 3; OString 0 0; OSlice 0 0 32; OSlice 0 32 64; ONewSignature 3 4; OCanonical 1].
Lemma ex_history H : safe_history H empty_world ex_ops /\
  exists w, run H empty_world ex_ops = Some w /\ length (w_sigs w) = 4 /\ length (w_slices w) = 5.
Proof.
  split.
  - unfold ex_ops. cbn [safe_history].
    repeat (split; [try exact Logic.I|intros w' E; vm_compute in E; injection E as <-]); try exact Logic.I.
    + intros s t E1 E2. vm_compute in E1, E2. injection E1 as <-. injection E2 as <-. right. vm_compute. reflexivity.
    + intros v E. vm_compute in E. injection E as <-. left. vm_compute. lia.
  - eexists. split; [vm_compute; reflexivity|]. split; reflexivity.
Qed.

Lemma verify_later H os1 os2 w1 w2 kp i m j g : safe_history H empty_world (os1 ++ os2) -> run H empty_world os1 = Some w1 -> run H w1 os2 = Some w2 ->
  nth_error (w_slices w1) i = Some m -> nth_error (w_sigs w1) j = Some g ->
  verify_h H (w_heap w2) kp m g = verify H kp (rd (w_heap w1) m) (sig_val (w_heap w1) g).
Proof.
  intros S R1 R2 Em Eg. destruct (history H os1 os2 w1 w2 S R1 R2) as [V1 V2].
  destruct (V1 i m Em) as [_ Rm]. destruct (V2 j g Eg) as [_ Rg]. unfold verify_h. rewrite Rm, Rg. reflexivity.
Qed.
