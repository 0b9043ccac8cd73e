(** Proofs about readers and histories (C54). *)
From Coq Require Import List ZArith Lia Bool Arith.
From Verif Require Import GoBase ApiModel SessionModel SessionSpec VerifyProofs CipherProofs.
Import ListNotations.

Lemma bytes_cons c e r : bytes_of ((c, e) :: r) = c ++ bytes_of r.
Proof. reflexivity. Qed.
Lemma read1_ok r n c e r' : (0 < n)%nat -> read1 r n = (c, e, r') ->
  bytes_of r = c ++ bytes_of r' /\ (length c <= n)%nat /\
  (e = None -> (length r' < length r)%nat \/ length c = n) /\ (quiet r -> quiet r' /\ (e = None \/ r = [] /\ e = Some REOF)).
Proof.
  intros N. unfold read1. destruct r as [|[ch ev] r0].
  - intros E. injection E as <- <- <-. cbn [length]. split; [reflexivity|]. split; [lia|].
    split; [discriminate|]. intros _. split; [constructor|right; split; reflexivity].
  - destruct (Nat.ltb_spec n (length ch)) as [L|L]; intros E; injection E as <- <- <-; rewrite !bytes_cons.
    + rewrite app_assoc, firstn_skipn. split; [reflexivity|]. rewrite firstn_length_le by lia. split; [lia|].
      split; [intros _; right; reflexivity|]. intros Q. inversion Q as [|? ? Q1 Q2]; subst. split; [constructor; assumption|left; reflexivity].
    + split; [reflexivity|]. split; [exact L|]. split; [intros _; left; cbn; lia|].
      intros Q. inversion Q as [|? ? Q1 Q2]; subst. split; [exact Q2|left; exact Q1].
Qed.
(** what the loop delivers; it never stops for lack of fuel *)
Lemma read_loop_ok : forall f r n c e r', (length r < f)%nat -> read_loop f r n = (c, e, r') ->
  bytes_of r = c ++ bytes_of r' /\ (length c <= n)%nat /\ (length c = n \/ exists x, e = Some x) /\
  (quiet r -> quiet r' /\ ((e = None /\ length c = n) \/ (e = Some REOF /\ (length c < n)%nat /\ bytes_of r' = []))).
Proof.
  induction f as [|f IH]; intros r n c e r' Lf; [lia|]. destruct n as [|n]; cbn [read_loop].
  - intros E. injection E as <- <- <-. repeat split; auto.
  - destruct (read1 r (S n)) as [[c1 e1] r1] eqn:E1. apply read1_ok in E1; [|lia]. destruct E1 as (B1 & L1 & P1 & Q1).
    destruct e1 as [e1|].
    + intros E. injection E as <- <- <-. split; [exact B1|]. split; [exact L1|]. split; [right; eauto|].
      intros Q. destruct (Q1 Q) as [Q' [X|[Er Ee]]]; [discriminate X|]. split; [exact Q'|]. right. subst r. injection Ee as ->.
      destruct c1; [|discriminate B1]. split; [reflexivity|]. split; [cbn; lia|]. symmetry. exact B1.
    + destruct (read_loop f r1 (S n - length c1)) as [[c2 e2] r2] eqn:E2. intros E. injection E as <- <- <-.
      rewrite app_length. destruct (P1 eq_refl) as [Lr|Lc].
      * apply IH in E2; [|lia]. destruct E2 as (B2 & L2 & D2 & Q2). rewrite B1, B2, app_assoc.
        split; [reflexivity|]. split; [lia|]. split; [destruct D2 as [D2|D2]; [left; lia|right; exact D2]|].
        intros Q. destruct (Q1 Q) as [Q' _]. destruct (Q2 Q') as [Q'' [[D3 D4]|(D3 & D4 & D5)]]; (split; [exact Q''|]);
          [left; split; [exact D3|lia]|right; split; [exact D3|split; [lia|exact D5]]].
      * rewrite Lc, Nat.sub_diag in E2. destruct f; cbn [read_loop] in E2; injection E2 as <- <- <-; cbn [length].
        all: rewrite app_nil_r; split; [exact B1|]; split; [lia|]; split; [left; lia|].
        all: intros Q; destruct (Q1 Q) as [Q' _]; split; [exact Q'|]; left; split; [reflexivity|lia].
Qed.
(** the loop has the same result for every sufficient number of rounds *)
Lemma fuel_step : forall f r n, (length r < f)%nat -> read_loop (S f) r n = read_loop f r n.
Proof.
  induction f as [|f IH]; intros r n L; [lia|]. destruct n as [|n]; [reflexivity|].
  change (read_loop (S (S f)) r (S n)) with
    (match read1 r (S n) with (c, Some e, r') => (c, Some e, r')
     | (c, None, r') => let '(c', e', r'') := read_loop (S f) r' (S n - length c) in (c ++ c', e', r'') end).
  change (read_loop (S f) r (S n)) with
    (match read1 r (S n) with (c, Some e, r') => (c, Some e, r')
     | (c, None, r') => let '(c', e', r'') := read_loop f r' (S n - length c) in (c ++ c', e', r'') end).
  destruct (read1 r (S n)) as [[c1 e1] r1] eqn:E1. apply read1_ok in E1; [|lia]. destruct E1 as (_ & _ & P1 & _).
  destruct e1 as [e1|]; [reflexivity|]. destruct (P1 eq_refl) as [Lr|Lc].
  - rewrite IH by lia. reflexivity.
  - rewrite Lc, Nat.sub_diag. destruct f; reflexivity.
Qed.
Lemma fuel_enough : forall f r n, (length r < f)%nat -> read_loop f r n = read_loop (S (length r)) r n.
Proof.
  intros f r n L. induction f as [|f IH]; [lia|]. destruct (Nat.eq_dec f (length r)) as [->|N]; [reflexivity|].
  rewrite fuel_step by lia. apply IH. lia.
Qed.

Lemma read_full_inl r n c r' : read_full_r r n = (inl c, r') -> length c = n /\ bytes_of r = c ++ bytes_of r'.
Proof.
  unfold read_full_r. destruct (read_loop (S (length r)) r n) as [[c0 e] r0] eqn:E. apply read_loop_ok in E; [|lia].
  destruct E as (B & L & _ & _). destruct (Nat.leb_spec n (length c0)); [|discriminate]. intros X. injection X as <- <-. split; [lia|exact B].
Qed.
Lemma read_full_inr r n e r' : read_full_r r n = (inr e, r') -> exists c, (length c < n)%nat /\ bytes_of r = c ++ bytes_of r'.
Proof.
  unfold read_full_r. destruct (read_loop (S (length r)) r n) as [[c0 e0] r0] eqn:E. apply read_loop_ok in E; [|lia].
  destruct E as (B & L & _ & _). destruct (Nat.leb_spec n (length c0)); [discriminate|]. intros X. injection X as <- <-. exists c0. split; [lia|exact B].
Qed.
Lemma read_full_quiet r n : quiet r ->
  exists r', quiet r' /\ bytes_of r' = skipn n (bytes_of r) /\
  read_full_r r n = ((if Nat.leb n (length (bytes_of r)) then inl (firstn n (bytes_of r))
                      else inr (match bytes_of r with [] => IoEOF | _ => IoUnexpectedEOF end)), r').
Proof.
  intros Q. unfold read_full_r. destruct (read_loop (S (length r)) r n) as [[c e] r'] eqn:E. apply read_loop_ok in E; [|lia].
  destruct E as (B & L & _ & X). destruct (X Q) as [Q' Y]. exists r'. split; [exact Q'|]. destruct Y as [[-> Lc]|(-> & Lc & B')].
  - rewrite B, <- Lc, skipn_app, skipn_all, Nat.sub_diag, firstn_app, firstn_all, Nat.sub_diag, app_length.
    cbn [firstn skipn]. rewrite app_nil_r. split; [reflexivity|].
    rewrite !(proj2 (Nat.leb_le _ _)) by lia. reflexivity.
  - rewrite B', app_nil_r in B. rewrite B, B'. split; [symmetry; apply skipn_all2; lia|].
    destruct (Nat.leb_spec n (length c)); [lia|]. reflexivity.
Qed.
Lemma read_full_take b n : (n <= length b)%nat -> read_full b n = Ok (firstn n b, skipn n b).
Proof. intros L. unfold read_full. destruct (Nat.ltb_spec (length b) n); [lia|reflexivity]. Qed.

Section S.
Variable H : list bytes -> bytes.
Variable G : bytes -> bytes.
Variables E D : bytes -> bytes -> bytes.

Lemma seen_of_res {A} (f : A -> value) r : seen (of_res f r) = res_map f r.
Proof. destruct r; reflexivity. Qed.
Lemma res_map_map {A B C} (f : B -> C) (g : A -> B) r : res_map f (res_map g r) = res_map (fun x => f (g x)) r.
Proof. destruct r; reflexivity. Qed.
Lemma res_map_bind {A B C} (f : B -> C) (g : A -> res B) r : res_map f (bind r g) = bind r (fun a => res_map f (g a)).
Proof. destruct r; reflexivity. Qed.

(** what a call took and what it made of it *)
Definition good (c : call) (b : bytes) (o : outcome) : Prop :=
  seen o = meaning H G E D c b /\
  (source_of c = None -> b = []) /\ (length b <= need c)%nat /\
  (forall v, o = Value v -> length b = need c) /\ (forall e, o = ReadError e -> (length b < need c)%nat).

Lemma generate_good r e o r' : generate_r H r = (o, r') ->
  exists b, bytes_of r = b ++ bytes_of r' /\ good (CGenerate (Some e)) b o.
Proof.
  unfold generate_r. destruct (read_full_r r 32) as [[c|x] r1] eqn:R; intros X.
  - apply read_full_inl in R as [L B]. injection X as <- <-. exists c. split; [exact B|]. split; [|split; [|split; [|split]]].
    + rewrite seen_of_res. cbn [meaning]. unfold generate_key_pair. rewrite read_full_take by lia. cbn [bind fst snd].
      rewrite firstn_all2 by lia. destruct (derive_public_key H (new_private_key c)) as [p| |]; cbn [bind res_map]; try reflexivity.
      cbn [new_key_pair]. destruct (is_key_compressed p); reflexivity.
    + discriminate.
    + cbn. lia.
    + intros v _. cbn. exact L.
    + intros e0. destruct (bind _ _); discriminate.
  - apply read_full_inr in R as (c & L & B). injection X as <- <-. exists c. split; [exact B|]. split; [|split; [|split; [|split]]].
    + cbn [meaning seen]. unfold generate_key_pair, read_full. destruct (Nat.ltb_spec (length c) 32); [reflexivity|lia].
    + discriminate.
    + cbn. lia.
    + discriminate.
    + intros e0 _. cbn. lia.
Qed.
Lemma seed_reader e : seed_of e = reader_of e.
Proof. destruct e as [i|]; [cbn; lia|reflexivity]. Qed.
Lemma source_encrypt s k e m : source_of (CEncrypt s k e m) = Some (seed_of (or_default e)).
Proof. destruct e as [e|]; cbn [source_of or_default]; [now rewrite seed_reader|reflexivity]. Qed.
Lemma encrypt_good s k e m r o r' : encrypt_r H G E (new_block_cipher s k) r m = (o, r') ->
  exists b, bytes_of r = b ++ bytes_of r' /\ good (CEncrypt s k e m) b o.
Proof.
  unfold encrypt_r. set (bc := new_block_cipher s k). set (n := bc_keylen bc).
  assert (Nn : n = length (kp_pub k)) by reflexivity.
  destruct (read_full_r r n) as [[salt|x] r1] eqn:R1.
  - apply read_full_inl in R1 as [L1 B1].
    assert (Es : forall iv, read_full (salt ++ iv) n = Ok (salt, iv)).
    { intros iv. rewrite read_full_take by (rewrite app_length; lia).
      rewrite firstn_app, skipn_app, L1, Nat.sub_diag, firstn_all2, skipn_all2 by lia. cbn [firstn skipn]. rewrite app_nil_r. reflexivity. }
    destruct (get_shared_key H G n (kp_priv (bc_sender bc)) (kp_pub (bc_recipient bc)) salt) as [key|x|] eqn:K.
    + destruct (read_full_r r1 16) as [[iv|x] r2] eqn:R2; intros X; injection X as <- <-.
      * apply read_full_inl in R2 as [L2 B2]. exists (salt ++ iv). split; [rewrite B1, B2, app_assoc; reflexivity|].
        split; [|split; [rewrite source_encrypt; discriminate|split; [|split]]].
        -- rewrite seen_of_res. cbn [meaning]. fold bc. unfold encrypt. fold n. rewrite Es. cbn [bind fst snd]. rewrite K. cbn [bind].
           rewrite read_full_take by lia. cbn [bind fst snd]. rewrite firstn_all2 by lia.
           destruct (bc_encode E m key iv) as [c| |]; reflexivity.
        -- cbn [need]. rewrite app_length. lia.
        -- intros v _. cbn [need]. rewrite app_length. lia.
        -- intros e0. destruct (bind _ _); discriminate.
      * apply read_full_inr in R2 as (c & L2 & B2). exists (salt ++ c). split; [rewrite B1, B2, app_assoc; reflexivity|].
        split; [|split; [rewrite source_encrypt; discriminate|split; [|split]]].
        -- cbn [meaning seen]. fold bc. unfold encrypt. fold n. rewrite Es. cbn [bind fst snd]. rewrite K. cbn [bind].
           unfold read_full. destruct (Nat.ltb_spec (length c) 16); [reflexivity|lia].
        -- cbn [need]. rewrite app_length. lia.
        -- discriminate.
        -- intros e0 _. cbn [need]. rewrite app_length. lia.
    + intros X; injection X as <- <-. exists salt. split; [exact B1|]. split; [|split; [rewrite source_encrypt; discriminate|split; [|split]]]; try discriminate; [|cbn; lia].
      cbn [meaning seen]. fold bc. unfold encrypt. fold n. rewrite <- (app_nil_r salt) at 1. rewrite Es. cbn [bind fst snd]. rewrite K. reflexivity.
    + intros X; injection X as <- <-. exists salt. split; [exact B1|]. split; [|split; [rewrite source_encrypt; discriminate|split; [|split]]]; try discriminate; [|cbn; lia].
      cbn [meaning seen]. fold bc. unfold encrypt. fold n. rewrite <- (app_nil_r salt) at 1. rewrite Es. cbn [bind fst snd]. rewrite K. reflexivity.
  - apply read_full_inr in R1 as (c & L1 & B1). intros X; injection X as <- <-. exists c. split; [exact B1|].
    split; [|split; [rewrite source_encrypt; discriminate|split; [|split]]].
    + cbn [meaning seen]. fold bc. unfold encrypt. fold n. unfold read_full. destruct (Nat.ltb_spec (length c) n); [reflexivity|lia].
    + cbn [need]. lia.
    + discriminate.
    + intros e0 _. cbn [need]. lia.
Qed.
Lemma pure_good c o (Hs : source_of c = None) (Hm : seen o = meaning H G E D c []) (Hr : forall e, o <> ReadError e) :
  good c [] o.
Proof.
  assert (N : need c = 0%nat) by (destruct c as [[e|]| |? ? [e|] ?| | | | |]; try reflexivity; discriminate Hs).
  split; [exact Hm|]. split; [reflexivity|]. rewrite N. split; [apply le_n|]. split; [reflexivity|].
  intros e Ee. destruct (Hr e Ee).
Qed.
Lemma call_good c w o w' : do_call H G E D c w = (o, w') ->
  exists b, good c b o /\ forall i, bytes_of (w i) =
    (match source_of c with Some j => if Nat.eqb j i then b else [] | None => [] end) ++ bytes_of (w' i).
Proof.
  assert (P : forall A (f : A -> value) r e, of_res f r <> ReadError e) by (intros A f [x|x|] e; discriminate).
  assert (U : forall j rd rd' b, bytes_of (w j) = b ++ bytes_of rd' -> rd = w j -> forall i, bytes_of (w i) =
    (if Nat.eqb j i then b else []) ++ bytes_of (set_reader w j rd' i)).
  { intros j rd rd' b B _ i. unfold set_reader. rewrite (Nat.eqb_sym i j). destruct (Nat.eqb_spec j i) as [<-|N]; [exact B|reflexivity]. }
  destruct c as [[e|]|priv pub e|s k e m|s k e m|k e m|k e m sg|k e sg|k e sg]; cbn [do_call].
  - destruct (generate_r H (w (seed_of e))) as [o1 r1] eqn:R. intros X. injection X as <- <-.
    destruct (generate_good _ e _ _ R) as (b & B & Gd). exists b. split; [exact Gd|]. cbn [source_of]. rewrite <- seed_reader. exact (U _ _ _ _ B eq_refl).
  - intros X; injection X as <- <-. exists []. split; [apply pure_good; try reflexivity; discriminate|reflexivity].
  - intros X; injection X as <- <-. exists []. split; [apply pure_good; try reflexivity; [apply seen_of_res|apply P]|reflexivity].
  - destruct (encrypt_r H G E (new_block_cipher s k) (w (seed_of (or_default e))) m) as [o1 r1] eqn:R. intros X. injection X as <- <-.
    destruct (encrypt_good s k e m _ _ _ R) as (b & B & Gd). exists b. split; [exact Gd|]. rewrite source_encrypt. exact (U _ _ _ _ B eq_refl).
  - intros X; injection X as <- <-. exists []. split; [apply pure_good; try reflexivity; [apply seen_of_res|apply P]|reflexivity].
  - intros X; injection X as <- <-. exists []. split; [apply pure_good; try reflexivity; [apply seen_of_res|apply P]|reflexivity].
  - intros X; injection X as <- <-. exists []. split; [apply pure_good; try reflexivity; [apply seen_of_res|apply P]|reflexivity].
  - intros X; injection X as <- <-. exists []. split; [apply pure_good; try reflexivity; discriminate|reflexivity].
  - intros X; injection X as <- <-. exists []. split; [apply pure_good; try reflexivity; [apply seen_of_res|apply P]|reflexivity].
Qed.
Lemma run_good : forall cs w os w', run H G E D cs w = (os, w') ->
  exists ws, length ws = length cs /\ length os = length cs /\
  (forall n c b o, nth_error cs n = Some c -> nth_error ws n = Some b -> nth_error os n = Some o -> good c b o) /\
  forall i, bytes_of (w i) = taken i cs ws ++ bytes_of (w' i).
Proof.
  induction cs as [|c cs IH]; intros w os w'; cbn [run].
  - intros X; injection X as <- <-. exists []. split; [reflexivity|]. split; [reflexivity|]. split; [intros [|n]; discriminate|reflexivity].
  - destruct (do_call H G E D c w) as [o w1] eqn:C. destruct (run H G E D cs w1) as [os1 w2] eqn:R. intros X; injection X as <- <-.
    destruct (call_good c w o w1 C) as (b & Gd & B). destruct (IH w1 os1 w2 R) as (ws & L1 & L2 & Gs & Bs).
    exists (b :: ws). split; [cbn; lia|]. split; [cbn; lia|]. split.
    + intros [|n] c0 b0 o0; cbn [nth_error]; [|apply Gs]. intros X1 X2 X3. injection X1 as <-. injection X2 as <-. injection X3 as <-. exact Gd.
    + intros i. rewrite B, Bs, app_assoc. f_equal. unfold taken. cbn [combine filter fst].
      destruct (source_of c) as [j|]; [|reflexivity]. destruct (Nat.eqb j i); reflexivity.
Qed.

(** ** Readers without errors: how they cut their bytes does not matter *)
Lemma generate_quiet r1 r2 : quiet r1 -> quiet r2 -> bytes_of r1 = bytes_of r2 ->
  fst (generate_r H r1) = fst (generate_r H r2) /\ quiet (snd (generate_r H r1)) /\ quiet (snd (generate_r H r2)) /\
  bytes_of (snd (generate_r H r1)) = bytes_of (snd (generate_r H r2)).
Proof.
  intros Q1 Q2 B. unfold generate_r.
  destruct (read_full_quiet r1 32 Q1) as (s1 & P1 & B1 & ->). destruct (read_full_quiet r2 32 Q2) as (s2 & P2 & B2 & ->).
  rewrite B in B1 |- *. destruct (Nat.leb 32 (length (bytes_of r2))); cbn [fst snd]; (split; [reflexivity|]); (split; [exact P1|]); (split; [exact P2|congruence]).
Qed.
Lemma encrypt_quiet bc m r1 r2 : quiet r1 -> quiet r2 -> bytes_of r1 = bytes_of r2 ->
  fst (encrypt_r H G E bc r1 m) = fst (encrypt_r H G E bc r2 m) /\ quiet (snd (encrypt_r H G E bc r1 m)) /\ quiet (snd (encrypt_r H G E bc r2 m)) /\
  bytes_of (snd (encrypt_r H G E bc r1 m)) = bytes_of (snd (encrypt_r H G E bc r2 m)).
Proof.
  intros Q1 Q2 B. unfold encrypt_r.
  destruct (read_full_quiet r1 (bc_keylen bc) Q1) as (s1 & P1 & B1 & ->). destruct (read_full_quiet r2 (bc_keylen bc) Q2) as (s2 & P2 & B2 & ->).
  rewrite B in B1 |- *. assert (B12 : bytes_of s1 = bytes_of s2) by congruence.
  destruct (Nat.leb (bc_keylen bc) (length (bytes_of r2))); [|cbn [fst snd]; tauto].
  destruct (get_shared_key _ _ _ _ _ _) as [key|x|]; [|cbn [fst snd]; tauto|cbn [fst snd]; tauto].
  destruct (read_full_quiet s1 16 P1) as (t1 & T1 & C1 & ->). destruct (read_full_quiet s2 16 P2) as (t2 & T2 & C2 & ->).
  rewrite B12 in C1 |- *. assert (C12 : bytes_of t1 = bytes_of t2) by congruence.
  destruct (Nat.leb 16 (length (bytes_of s2))); cbn [fst snd]; tauto.
Qed.
Definition same (w1 w2 : world) : Prop := forall i, quiet (w1 i) /\ quiet (w2 i) /\ bytes_of (w1 i) = bytes_of (w2 i).
Lemma same_set w1 w2 j r1 r2 : same w1 w2 -> quiet r1 -> quiet r2 -> bytes_of r1 = bytes_of r2 -> same (set_reader w1 j r1) (set_reader w2 j r2).
Proof. intros S Q1 Q2 B i. unfold set_reader. destruct (Nat.eqb i j); [auto|apply S]. Qed.
Lemma call_same c w1 w2 : same w1 w2 ->
  fst (do_call H G E D c w1) = fst (do_call H G E D c w2) /\ same (snd (do_call H G E D c w1)) (snd (do_call H G E D c w2)).
Proof.
  intros S. destruct c as [[e|]|priv pub e|s k e m|s k e m|k e m|k e m sg|k e sg|k e sg]; cbn [do_call]; try (split; [reflexivity|exact S]).
  - destruct (S (seed_of e)) as (Q1 & Q2 & B). destruct (generate_quiet _ _ Q1 Q2 B) as (O & P1 & P2 & B').
    destruct (generate_r H (w1 (seed_of e))), (generate_r H (w2 (seed_of e))). cbn [fst snd] in *. split; [exact O|]. now apply same_set.
  - destruct (S (seed_of (or_default e))) as (Q1 & Q2 & B). destruct (encrypt_quiet (new_block_cipher s k) m _ _ Q1 Q2 B) as (O & P1 & P2 & B').
    destruct (encrypt_r H G E _ (w1 _) m), (encrypt_r H G E _ (w2 _) m). cbn [fst snd] in *. split; [exact O|]. now apply same_set.
Qed.
Lemma run_same : forall cs w1 w2, same w1 w2 ->
  fst (run H G E D cs w1) = fst (run H G E D cs w2) /\ same (snd (run H G E D cs w1)) (snd (run H G E D cs w2)).
Proof.
  induction cs as [|c cs IH]; intros w1 w2 S; cbn [run]; [split; [reflexivity|exact S]|].
  destruct (call_same c w1 w2 S) as [O S']. destruct (do_call H G E D c w1) as [o1 v1], (do_call H G E D c w2) as [o2 v2]. cbn [fst snd] in O, S'.
  destruct (IH v1 v2 S') as [O' S'']. destruct (run H G E D cs v1) as [p1 u1], (run H G E D cs v2) as [p2 u2]. cbn [fst snd] in *.
  split; [congruence|exact S''].
Qed.
End S.
