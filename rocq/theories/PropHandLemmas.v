(** Proofs of C81 and C82. *)
From Coq Require Import List ZArith Lia Bool.
From Verif Require Import GoBase FieldModel Tables GroupModel TextModel ApiModel PointCodec MemApi HandModel HandSpec.
Import ListNotations.
Open Scope Z_scope.
#[local] Opaque fe_mul fe_add fe_sub fe_sq fe_sq2 fe_encode fe_invert fe_equals fe_is_negative go_d go_d2 fe_zero fe_one fe_string beq_bytes set_sign.

Lemma system_cases n : (n = 0 /\ system n = Some AFFINE) \/ (n = 1 /\ system n = Some P2) \/ (n = 2 /\ system n = Some P3) \/
  (n = 3 /\ system n = Some P1xP1) \/ (n = 4 /\ system n = Some PRECOMPUTED) \/ (n = 5 /\ system n = Some CACHED) \/
  (~ (0 <= n <= 5) /\ system n = None).
Proof.
  unfold system.
  destruct (Z.eqb_spec n 0); [tauto|]. destruct (Z.eqb_spec n 1); [tauto|]. destruct (Z.eqb_spec n 2); [tauto|].
  destruct (Z.eqb_spec n 3); [tauto|]. destruct (Z.eqb_spec n 4); [tauto|]. destruct (Z.eqb_spec n 5); [tauto|].
  repeat right. split; [lia|reflexivity].
Qed.
Lemma system_number c : system (number c) = Some c.
Proof. destruct c; reflexivity. Qed.

(** ** agreement *)
Lemma to_agrees g c : agrees lift (h_to (lift g) (number c)) (to_cs g c).
Proof.
  destruct g as [s x y z t]. destruct s, c; cbn; try reflexivity; try (eexists; reflexivity); destruct t; cbn; try reflexivity; eexists; reflexivity.
Qed.
Lemma same_res {A} (x : res A) : agrees (fun a => a) (of_res x) x.
Proof. destruct x; cbn; try reflexivity. eexists; reflexivity. Qed.
Lemma encode_proj_agrees g : agrees (fun a => a) (h_encode_proj (lift g)) (g_encode_proj g).
Proof. apply same_res. Qed.
Lemma bind_agrees {A B C D} (f : A -> C) (k : B -> D) (x : out C) (y : res A) (u : C -> out D) (v : A -> res B) :
  agrees f x y -> (forall a, agrees k (u (f a)) (v a)) -> agrees k (obind x u) (bind y v).
Proof. destruct y; cbn [agrees bind]; intros H K; [rewrite H; apply K|rewrite H; reflexivity|destruct H as (w & ->); exists w; reflexivity]. Qed.
Lemma encode_agrees g : agrees (fun a => a) (h_encode (lift g)) (g_encode g).
Proof.
  unfold h_encode, g_encode. change (h_cs (lift g)) with (number (g_cs g)). rewrite system_number.
  assert (T : agrees (fun a => a) (obind (h_to (lift g) (number P2)) h_encode_proj) (bind (to_P2 g) g_encode_proj))
    by (apply (bind_agrees lift); [apply to_agrees|intros a; apply encode_proj_agrees]).
  pose proof (encode_proj_agrees g) as Q. destruct (g_cs g); [exact T|exact Q|exact Q|exact T|exact T|exact T].
Qed.
Lemma satisfies_proj_eq g : h_satisfies_proj (lift g) = Val (g_on_curve_proj g).
Proof. destruct g as [s x y z t]. reflexivity. Qed.
Lemma satisfies_agrees g : agrees (fun a => a) (h_satisfies (lift g)) (g_satisfies g).
Proof.
  unfold h_satisfies, g_satisfies. change (h_cs (lift g)) with (number (g_cs g)). rewrite system_number.
  assert (T : agrees (fun a => a) (obind (h_to (lift g) (number P2)) h_satisfies_proj) (bind (to_P2 g) (fun g2 => Ok (g_on_curve_proj g2))))
    by (apply (bind_agrees lift); [apply to_agrees|intros a; exact (satisfies_proj_eq a)]).
  pose proof (satisfies_proj_eq g : agrees (fun a => a) (h_satisfies_proj (lift g)) (Ok (g_on_curve_proj g))) as Q.
  destruct (g_cs g); [exact T|exact Q|exact Q|exact T|exact T|exact T].
Qed.
Lemma dbl_agrees g : agrees lift (h_dbl (lift g)) (g_dbl g).
Proof. destruct g as [s x y z t]. destruct s; cbn; try reflexivity; eexists; reflexivity. Qed.
Lemma add_agrees r g : agrees lift (h_add (lift r) (lift g)) (g_add r g) /\ agrees lift (h_subtract (lift r) (lift g)) (g_subtract r g).
Proof.
  destruct r as [s x y z t], g as [s' x' y' z' t'].
  split; destruct s; try (cbn; eexists; reflexivity); destruct s'; try (cbn; eexists; reflexivity); destruct t, t'; cbn; try reflexivity; eexists; reflexivity.
Qed.
Lemma precomputed_agrees r g : agrees lift (h_precomputedAdd (lift r) (lift g)) (g_precomputedAdd r g) /\
  agrees lift (h_precomputedSubtract (lift r) (lift g)) (g_precomputedSubtract r g).
Proof.
  destruct r as [s x y z t], g as [s' x' y' z' t'].
  split; destruct s; try (cbn; first [reflexivity|eexists; reflexivity]); destruct s'; try (cbn; first [reflexivity|eexists; reflexivity]);
    destruct t; cbn; try reflexivity; eexists; reflexivity.
Qed.
Lemma negate_agrees r : agrees lift (h_negate (lift r)) (g_negate r).
Proof.
  unfold h_negate, g_negate. change (is_sys (lift r) P3) with (number (g_cs r) =? number P3).
  replace (number (g_cs r) =? number P3) with (csys_eqb (g_cs r) P3) by (destruct (g_cs r); reflexivity).
  destruct (csys_eqb (g_cs r) P3); cbn [negb]; [|reflexivity].
  apply (bind_agrees lift); [apply to_agrees|]. intros c. apply (bind_agrees lift); [apply (proj2 (add_agrees zero_P3 c))|]. intros s. apply to_agrees.
Qed.
Lemma string_agrees g : agrees (fun a => a) (h_string (lift g)) (g_string g).
Proof. destruct g as [s x y z t]. destruct t; cbn -[lit fe_string newline app]; [reflexivity|eexists; reflexivity]. Qed.
Lemma proj_agrees c d x y z t x' y' z' t' :
  c_proj (Hand c (Some x) (Some y) (Some z) t) (Hand d (Some x') (Some y') (Some z') t') =
  Val (eq_P2P3 (G P2 x y z t) (G P2 x' y' z' t')).
Proof.
  unfold c_proj, eq_P2P3. cbn [hX hY hZ need gX gY gZ]. destruct (fe_equals z z'); [|reflexivity].
  destruct (fe_equals x x'); reflexivity.
Qed.
Lemma precomputed_eq c d x y z t x' y' z' t' :
  c_precomputed (Hand c (Some x) (Some y) (Some z) t) (Hand d (Some x') (Some y') (Some z') t') =
  Val (fe_equals x x' && fe_equals y y' && fe_equals z z').
Proof.
  unfold c_precomputed. cbn [hX hY hZ need]. destruct (fe_equals x x'); [|reflexivity]. destruct (fe_equals y y'); reflexivity.
Qed.
Lemma cached_agrees c d x y z t x' y' z' t' :
  agrees (fun a => a) (c_cached (Hand c (Some x) (Some y) (Some z) t) (Hand d (Some x') (Some y') (Some z') t'))
    (eq_cached (G CACHED x y z t) (G CACHED x' y' z' t')).
Proof.
  unfold c_cached, eq_cached. cbn [hX hY hZ hT need gX gY gZ gT]. destruct (fe_equals z z').
  - destruct (fe_equals x x'); [|reflexivity]. destruct (fe_equals y y'); [|reflexivity].
    destruct t, t'; cbn; try reflexivity; eexists; reflexivity.
  - destruct t, t'; cbn; try reflexivity; eexists; reflexivity.
Qed.
Lemma recovering_agrees r n x y : agrees (fun a => a) x y -> agrees (fun a => a) (snd (recovering r n x)) (recover_false y).
Proof. destruct y; cbn [agrees recover_false]; [intros ->; reflexivity|intros ->; reflexivity|intros (v & ->); reflexivity]. Qed.
Lemma system_neq a b : a <> b -> (number a =? number b) = false.
Proof. destruct a, b; intros H; try reflexivity; elim H; reflexivity. Qed.
Lemma other_agrees r g : g_cs r <> P1xP1 -> agrees (fun a => a) (snd (h_equals_other (lift r) (lift g)))
  (recover_false (do g' <- to_cs g (g_cs r);
      match g_cs r with
      | P2 | P3 => Ok (eq_P2P3 r g')
      | P1xP1 => do r2 <- to_P2 r; do g2 <- to_P2 g'; Ok (eq_P2P3 r2 g2)
      | PRECOMPUTED =>
          Ok (fe_equals (gX r) (gX g') && fe_equals (gY r) (gY g') && fe_equals (gZ r) (gZ g'))
      | CACHED => eq_cached r g'
      | AFFINE => Panic
      end)).
Proof.
  intros N. unfold h_equals_other. change (h_cs (lift r)) with (number (g_cs r)).
  pose proof (to_agrees g (g_cs r)) as T. destruct (to_cs g (g_cs r)) as [g'| |]; cbn [agrees] in T.
  - rewrite T. cbn [bind]. apply recovering_agrees. rewrite system_number. clear T.
    destruct r as [s x y z t], g' as [s' x' y' z' t']. cbn [g_cs] in *. unfold lift. cbn [g_cs gX gY gZ gT].
    destruct s; [exists PSystem; reflexivity|exact (proj_agrees _ _ _ _ _ _ _ _ _ _)|exact (proj_agrees _ _ _ _ _ _ _ _ _ _)|elim N; reflexivity|
      exact (precomputed_eq _ _ _ _ _ _ _ _ _ _)|exact (cached_agrees _ _ _ _ _ _ _ _ _ _)].
  - rewrite T. reflexivity.
  - destruct T as (v & ->). reflexivity.
Qed.
Lemma number_eqb a b : (number a =? number b) = csys_eqb a b.
Proof. destruct a, b; reflexivity. Qed.
Lemma equals_agrees r g : agrees (fun a => a) (snd (h_equals (lift r) (lift g))) (g_equals r g).
Proof.
  unfold h_equals, g_equals. change (h_cs (lift r)) with (number (g_cs r)). change (h_cs (lift g)) with (number (g_cs g)). rewrite number_eqb.
  destruct (csys_eqb (g_cs r) (g_cs g)) eqn:E; cbn [negb].
  - rewrite system_number. destruct (g_cs r) eqn:R.
    + exists PSystem. reflexivity.
    + destruct r, g. exact (proj_agrees _ _ _ _ _ _ _ _ _ _).
    + destruct r, g. exact (proj_agrees _ _ _ _ _ _ _ _ _ _).
    + pose proof (to_agrees r P2) as T. unfold to_P2 at 1. destruct (to_cs r P2) as [r2| |] eqn:C; cbn [agrees bind] in *.
      * rewrite T. assert (F : g_cs r2 = P2).
        { unfold to_cs in C. rewrite R in C. destruct (deref (gT r)); cbn [bind] in C; [|discriminate C|discriminate C].
          apply (f_equal (fun x => match x with Ok a => a | _ => r2 end)) in C. rewrite <- C. reflexivity. }
        pose proof (other_agrees r2 g) as Q. rewrite F in Q. apply Q. intros X; discriminate X.
      * rewrite T. reflexivity.
      * destruct T as (v & ->). exists v. reflexivity.
    + destruct r, g. exact (precomputed_eq _ _ _ _ _ _ _ _ _ _).
    + destruct r, g. exact (cached_agrees _ _ _ _ _ _ _ _ _ _).
  - assert (D : g_cs r = P1xP1 \/ g_cs r <> P1xP1) by (destruct (g_cs r); (left; reflexivity) || (right; intros X; discriminate X)).
    destruct D as [D|D]; [|exact (other_agrees r g D)].
    unfold h_equals_other. change (h_cs (lift r)) with (number (g_cs r)). pose proof (to_agrees g (g_cs r)) as T. rewrite D in *.
    assert (P : to_cs g P1xP1 = Panic) by (unfold to_cs; destruct (g_cs g); try reflexivity; discriminate E).
    rewrite P in *. destruct T as (v & ->). reflexivity.
Qed.

(** ** Panics *)
Lemma out_cases {A} (x : out A) : returns x \/ (exists e, x = Fail e) \/ panics x.
Proof. destruct x; [left|right; left|right; right]; eexists; reflexivity. Qed.
Lemma need4_case {B} g (f : fe -> fe -> fe -> fe -> out B) :
  (no4 g /\ need4 g f = Pan PNil) \/ (~ no4 g /\ exists x y z t, need4 g f = f x y z t /\ hX g = Some x /\ hY g = Some y /\ hZ g = Some z /\ hT g = Some t).
Proof.
  unfold need4, no4, no3. destruct g as [s x y z t]. cbn [hX hY hZ hT].
  destruct x as [x|]; [|left; split; [tauto|reflexivity]]. destruct y as [y|]; [|left; split; [tauto|reflexivity]].
  destruct z as [z|]; [|left; split; [tauto|reflexivity]]. destruct t as [t|]; [|left; split; [tauto|reflexivity]].
  right. split; [intros [[H|[H|H]]|H]; discriminate H|]. exists x, y, z, t. repeat split.
Qed.
Lemma need3_case {B} g (f : fe -> fe -> fe -> out B) :
  let n := need (hX g) (fun x => need (hY g) (fun y => need (hZ g) (fun z => f x y z))) in
  (no3 g /\ n = Pan PNil) \/ (~ no3 g /\ exists x y z, n = f x y z).
Proof.
  unfold no3. destruct g as [s x y z t]. cbn [hX hY hZ hT].
  destruct x as [x|]; [|left; split; [tauto|reflexivity]]. destruct y as [y|]; [|left; split; [tauto|reflexivity]].
  destruct z as [z|]; [|left; split; [tauto|reflexivity]].
  right. split; [intros [H|[H|H]]; discriminate H|]. exists x, y, z. reflexivity.
Qed.
Ltac nope := let v := fresh in let H := fresh in intros (v & H); discriminate H.
Lemma pan_iff {A} (x : out A) (Q : Prop) : (Q /\ panics x) \/ (~ Q /\ ~ panics x) -> (panics x <-> Q).
Proof. tauto. Qed.
Lemma is_pan {A} (v : pval) : panics (@Pan A v).
Proof. exists v. reflexivity. Qed.
Lemma not_pan {A} (a : A) : ~ panics (Val a).
Proof. nope. Qed.
Lemma convert_panics g n : panics (h_to g n) <->
  ~ In (h_cs g, n) pairs \/
  ((h_cs g = 2 /\ n = 5) /\ (hX g = None \/ hY g = None \/ hT g = None)) \/
  ((h_cs g = 3 /\ (n = 1 \/ n = 2)) /\ no4 g).
Proof.
  unfold h_to, no4, no3, pairs. destruct g as [s x y z t]. cbn [h_cs hX hY hZ hT In].
  destruct (system_cases s) as [(-> & E1)|[(-> & E1)|[(-> & E1)|[(-> & E1)|[(-> & E1)|[(-> & E1)|(S1 & E1)]]]]]]; rewrite E1;
  destruct (system_cases n) as [(-> & E2)|[(-> & E2)|[(-> & E2)|[(-> & E2)|[(-> & E2)|[(-> & E2)|(S2 & E2)]]]]]]; rewrite ?E2;
  try (apply pan_iff; left; split; [left; intros H; repeat (destruct H as [H|H]; [inversion H; lia|]); exact H|apply is_pan]);
  try (apply pan_iff; right; split; [|apply not_pan]; intros [H|[((H1 & H2) & H)|((H1 & H2) & H)]]; [apply H; tauto|lia|lia]).
  - (* 2,5 *) destruct y as [y|], x as [x|], t as [t|]; cbn [need]; apply pan_iff;
      first [left; split; [right; left; tauto|apply is_pan]
            |right; split; [|apply not_pan]; intros [H|[((H1 & H2) & [H|[H|H]])|((H1 & H2) & H)]]; [apply H; tauto|discriminate H|discriminate H|discriminate H|lia]].
  - (* 3,1 *) destruct y as [y|], x as [x|], z as [z|], t as [t|]; cbn [need]; apply pan_iff;
      first [left; split; [right; right; tauto|apply is_pan]
            |right; split; [|apply not_pan]; intros [H|[((H1 & H2) & H)|((H1 & H2) & [[H|[H|H]]|H])]]; [apply H; tauto|lia|discriminate H|discriminate H|discriminate H|discriminate H]].
  - (* 3,2 *) destruct y as [y|], x as [x|], z as [z|], t as [t|]; cbn [need]; apply pan_iff;
      first [left; split; [right; right; tauto|apply is_pan]
            |right; split; [|apply not_pan]; intros [H|[((H1 & H2) & H)|((H1 & H2) & [[H|[H|H]]|H])]]; [apply H; tauto|lia|discriminate H|discriminate H|discriminate H|discriminate H]].
Qed.
Lemma convert_no_error g n e : h_to g n <> Fail e.
Proof.
  unfold h_to. destruct g as [s x y z t]. cbn [h_cs hX hY hZ hT].
  destruct (system s) as [[]|]; try discriminate; destruct (system n) as [[]|]; try discriminate;
    destruct y as [y|], x as [x|], z as [z|], t as [t|]; discriminate.
Qed.
Lemma range_cases s : (s = 1 \/ s = 2 \/ s = 3 \/ s = 4 \/ s = 5) \/ ~ (1 <= s <= 5).
Proof. lia. Qed.
Lemma need_zxy {B} g (f : fe -> fe -> fe -> out B) :
  let n := need (hZ g) (fun z => need (hX g) (fun x => need (hY g) (fun y => f z x y))) in
  (no3 g /\ n = Pan PNil) \/ (~ no3 g /\ exists z x y, n = f z x y).
Proof.
  unfold no3. destruct g as [s x y z t]. cbn [hX hY hZ hT].
  destruct z as [z|]; [|left; split; [tauto|reflexivity]].
  destruct x as [x|]; [|left; split; [tauto|reflexivity]]. destruct y as [y|]; [|left; split; [tauto|reflexivity]].
  right. split; [intros [H|[H|H]]; discriminate H|]. exists z, x, y. reflexivity.
Qed.
Lemma encode_proj_cases g : (no3 g /\ panics (h_encode_proj g)) \/ (~ no3 g /\ exists b, h_encode_proj g = Val b /\ length b = 32%nat).
Proof.
  unfold h_encode_proj. pose proof (need_zxy g (fun z x y => of_res (new_ege (set_sign (fe_is_negative (fe_mul x (fe_invert z))) (fe_encode (fe_mul y (fe_invert z))))))) as C.
  cbn zeta in *. destruct C as [[N ->]|[N (z & x & y & ->)]]; [left; split; [exact N|apply is_pan]|right; split; [exact N|]].
  eexists. unfold new_ege. rewrite set_sign_length; rewrite fe_encode_32; [|lia]. split; [reflexivity|].
  rewrite set_sign_length; rewrite fe_encode_32; lia.
Qed.
Lemma satisfies_proj_cases g : (no3 g /\ panics (h_satisfies_proj g)) \/ (~ no3 g /\ exists b, h_satisfies_proj g = Val b).
Proof.
  unfold h_satisfies_proj. destruct g as [s x y z t]. unfold no3. cbn [hX hY hZ].
  destruct z as [z|]; [|left; split; [tauto|apply is_pan]].
  destruct x as [x|]; [|left; split; [tauto|apply is_pan]]. destruct y as [y|]; [|left; split; [tauto|apply is_pan]].
  right. split; [intros [H|[H|H]]; discriminate H|]. eexists. reflexivity.
Qed.
(** the shape of Encode and SatisfiesCurveEquation *)
Lemma by_P2 {A} (f : hand -> out A) (ok : A -> Prop) g :
  (forall g, (no3 g /\ panics (f g)) \/ (~ no3 g /\ exists b, f g = Val b /\ ok b)) ->
  let r := match system (h_cs g) with Some P2 | Some P3 => f g | _ => obind (h_to g (number P2)) f end in
  (panics r <-> ~ (1 <= h_cs g <= 3) \/ no3 g \/ (h_cs g = 3 /\ hT g = None)) /\
  (panics r \/ exists a, r = Val a /\ ok a).
Proof.
  intros Hf r. unfold r. clear r.
  assert (Bad : ~ (1 <= h_cs g <= 3) -> panics (obind (h_to g (number P2)) f)).
  { intros N. assert (P : panics (h_to g (number P2))).
    { apply convert_panics. left. unfold pairs. cbn [In number]. intros H. repeat (destruct H as [H|H]; [inversion H; lia|]). exact H. }
    destruct P as (v & ->). exists v. reflexivity. }
  assert (Good : h_cs g = 1 \/ h_cs g = 2 -> ((panics (f g) <-> ~ (1 <= h_cs g <= 3) \/ no3 g \/ (h_cs g = 3 /\ hT g = None)) /\
    (panics (f g) \/ exists a, f g = Val a /\ ok a))).
  { intros K. destruct (Hf g) as [[N P]|[N (b & E & O1)]].
    - split; [split; [auto|intros _; exact P]|left; exact P].
    - rewrite E. split; [|right; exists b; split; [reflexivity|exact O1]]. split; [intros Q; destruct (not_pan b Q)|].
      intros [Q|[Q|Q]]; [lia|contradiction|lia]. }
  destruct (system_cases (h_cs g)) as [(V & ->)|[(V & ->)|[(V & ->)|[(V & ->)|[(V & ->)|[(V & ->)|(V & ->)]]]]]];
    try (split; [split; [intros _; left; lia|intros _; apply Bad; lia]|left; apply Bad; lia]); try (apply Good; auto).
  pose proof (convert_panics g 1) as C. change (number P2) with 1.
  destruct (out_cases (h_to g 1)) as [(g' & E)|[(e & E)|P]].
  - assert (NP : ~ no4 g) by (intros Q; rewrite E in C; apply (not_pan g'), C; right; right; auto).
    rewrite E. cbn [obind]. assert (N3 : ~ no3 g').
    { unfold h_to in E. rewrite V in E. cbn in E. unfold no4, no3 in NP. destruct (hX g), (hT g), (hY g), (hZ g); cbn [need] in E; try tauto.
      injection E as <-. unfold no3. cbn. intros [H|[H|H]]; discriminate H. }
    destruct (Hf g') as [[N _]|[_ (b & Eb & O1)]]; [contradiction|]. rewrite Eb. split; [|right; exists b; split; [reflexivity|exact O1]].
    split; [intros Q; destruct (not_pan b Q)|]. unfold no4 in NP. intros [Q|[Q|Q]]; [lia|tauto|tauto].
  - destruct (convert_no_error g 1 e E).
  - assert (N4 : no4 g).
    { apply C in P. destruct P as [P|[P|P]]; [|lia|tauto]. elim P. rewrite V. unfold pairs. cbn [In]. do 4 right. left. reflexivity. }
    destruct P as (v & ->). cbn [obind]. split; [|left; apply is_pan]. split; [|intros _; apply is_pan].
    intros _. destruct N4; auto.
Qed.
Lemma encode_panics g : (panics (h_encode g) <-> ~ (1 <= h_cs g <= 3) \/ no3 g \/ (h_cs g = 3 /\ hT g = None)) /\
  (panics (h_encode g) \/ exists b, h_encode g = Val b /\ length b = 32%nat).
Proof. exact (by_P2 h_encode_proj (fun b => length b = 32%nat) g encode_proj_cases). Qed.
Lemma satisfies_panics g : (panics (h_satisfies g) <-> ~ (1 <= h_cs g <= 3) \/ no3 g \/ (h_cs g = 3 /\ hT g = None)) /\
  (panics (h_satisfies g) \/ returns (h_satisfies g)).
Proof.
  destruct (by_P2 h_satisfies_proj (fun _ => True) g) as [H1 H2].
  - intros g'. destruct (satisfies_proj_cases g') as [?|[N (b & E)]]; [left; assumption|right; split; [exact N|exists b; auto]].
  - split; [exact H1|]. destruct H2 as [?|(b & E & _)]; [left; assumption|right; exists b; exact E].
Qed.
Lemma dbl_panics g : (panics (h_dbl g) <-> ~ (h_cs g = 1 \/ h_cs g = 2) \/ no3 g) /\ (panics (h_dbl g) \/ returns (h_dbl g)).
Proof.
  unfold h_dbl. destruct (system_cases (h_cs g)) as [(V & ->)|[(V & ->)|[(V & ->)|[(V & ->)|[(V & ->)|[(V & ->)|(V & ->)]]]]]];
   try (split; [split; [intros _; left; lia|intros _; apply is_pan]|left; apply is_pan]);
   unfold no3; destruct g as [s [x|] [y|] [z|] t]; cbn [hX hY hZ need];
   (split; [apply pan_iff; first [left; split; [tauto|apply is_pan]|right; split; [intros [Q|[Q|[Q|Q]]]; [cbn in *; lia|discriminate Q|discriminate Q|discriminate Q]|apply not_pan]]
           |first [left; apply is_pan|right; eexists; reflexivity]]).
Qed.
Lemma is_sys_spec g c : (h_cs g = number c /\ is_sys g c = true) \/ (h_cs g <> number c /\ is_sys g c = false).
Proof. unfold is_sys. destruct (Z.eqb_spec (h_cs g) (number c)); [left|right]; auto. Qed.
Lemma four_four {B} c1 c2 r g (p1 p2 : pval) (f : fe -> fe -> fe -> fe -> fe -> fe -> fe -> fe -> B) :
  let o := if negb (is_sys r c1) then Pan p1 else if negb (is_sys g c2) then Pan p2 else
           need4 r (fun x y z t => need4 g (fun x' y' z' t' => Val (f x y z t x' y' z' t'))) in
  (panics o <-> h_cs r <> number c1 \/ h_cs g <> number c2 \/ no4 r \/ no4 g) /\ (panics o \/ returns o).
Proof.
  cbn zeta. destruct (is_sys_spec r c1) as [(V & ->)|(V & ->)]; cbn [negb]; [|split; [split; [auto|intros _; apply is_pan]|left; apply is_pan]].
  destruct (is_sys_spec g c2) as [(V' & ->)|(V' & ->)]; cbn [negb]; [|split; [split; [auto|intros _; apply is_pan]|left; apply is_pan]].
  destruct (need4_case r (fun x y z t => need4 g (fun x' y' z' t' => Val (f x y z t x' y' z' t')))) as [(N & ->)|(N & x & y & z & t & -> & _)];
    [split; [split; [auto|intros _; apply is_pan]|left; apply is_pan]|].
  destruct (need4_case g (fun x' y' z' t' => Val (f x y z t x' y' z' t'))) as [(N' & ->)|(N' & x' & y' & z' & t' & -> & _)];
    [split; [split; [auto|intros _; apply is_pan]|left; apply is_pan]|].
  split; [|right; eexists; reflexivity]. split; [intros Q; destruct (not_pan _ Q)|tauto].
Qed.
Lemma add_panics r g : (panics (h_add r g) <-> h_cs r <> 2 \/ h_cs g <> 5 \/ no4 r \/ no4 g) /\ (panics (h_add r g) \/ returns (h_add r g)).
Proof. exact (four_four P3 CACHED r g _ _ _). Qed.
Lemma subtract_panics r g : (panics (h_subtract r g) <-> h_cs r <> 2 \/ h_cs g <> 5 \/ no4 r \/ no4 g) /\ (panics (h_subtract r g) \/ returns (h_subtract r g)).
Proof. exact (four_four P3 CACHED r g _ _ _). Qed.
Lemma four_three {B} r g (f : fe -> fe -> fe -> fe -> fe -> fe -> fe -> B) :
  let o := need4 r (fun x y z t => need (hX g) (fun x' => need (hY g) (fun y' => need (hZ g) (fun z' => Val (f x y z t x' y' z'))))) in
  (panics o <-> no4 r \/ no3 g) /\ (panics o \/ returns o).
Proof.
  cbn zeta. destruct (need4_case r (fun x y z t => need (hX g) (fun x' => need (hY g) (fun y' => need (hZ g) (fun z' => Val (f x y z t x' y' z'))))))
    as [(N & ->)|(N & x & y & z & t & -> & _)]; [split; [split; [auto|intros _; apply is_pan]|left; apply is_pan]|].
  destruct (need3_case g (fun x' y' z' => Val (f x y z t x' y' z'))) as [(N' & ->)|(N' & x' & y' & z' & ->)];
    [split; [split; [auto|intros _; apply is_pan]|left; apply is_pan]|].
  split; [|right; eexists; reflexivity]. split; [intros Q; destruct (not_pan _ Q)|tauto].
Qed.
Lemma psub_panics r g : (panics (h_precomputedSubtract r g) <-> h_cs r <> 2 \/ h_cs g <> 4 \/ no4 r \/ no3 g) /\
  (panics (h_precomputedSubtract r g) \/ returns (h_precomputedSubtract r g)).
Proof.
  unfold h_precomputedSubtract.
  destruct (is_sys_spec r P3) as [(V & ->)|(V & ->)]; cbn [negb number] in *; [|split; [split; [auto|intros _; apply is_pan]|left; apply is_pan]].
  destruct (is_sys_spec g PRECOMPUTED) as [(V' & ->)|(V' & ->)]; cbn [negb number] in *; [|split; [split; [auto|intros _; apply is_pan]|left; apply is_pan]].
  pose proof (four_three r g (fun x y z t x' y' z' => mk P1xP1 (fe_sub (fe_mul (fe_add y x) y') (fe_mul (fe_sub y x) x'))
     (fe_add (fe_mul (fe_add y x) y') (fe_mul (fe_sub y x) x')) (fe_sub (fe_add z z) (fe_mul z' t)) (Some (fe_add (fe_add z z) (fe_mul z' t))))) as K.
  cbn zeta in *. destruct K as [K1 K2]. split; [|exact K2]. rewrite K1. tauto.
Qed.
Lemma padd_panics r g : (panics (h_precomputedAdd r g) <-> h_cs r = 2 /\ h_cs g = 4 /\ (no4 r \/ no3 g)) /\
  (h_cs r <> 2 -> h_precomputedAdd r g = Fail ErrUnsupported) /\
  (h_cs r = 2 -> h_cs g <> 4 -> h_precomputedAdd r g = Fail ErrIllegalArgument) /\
  (h_cs r = 2 -> h_cs g = 4 -> panics (h_precomputedAdd r g) \/ returns (h_precomputedAdd r g)).
Proof.
  unfold h_precomputedAdd.
  destruct (is_sys_spec r P3) as [(V & ->)|(V & ->)]; cbn [negb number] in *;
    [|split; [split; [nope|tauto]|]; split; [reflexivity|]; split; intros; contradiction].
  destruct (is_sys_spec g PRECOMPUTED) as [(V' & ->)|(V' & ->)]; cbn [negb number] in *;
    [|split; [split; [nope|tauto]|]; split; [contradiction|]; split; [reflexivity|intros; contradiction]].
  pose proof (four_three r g (fun x y z t x' y' z' => mk P1xP1 (fe_sub (fe_mul (fe_add y x) x') (fe_mul (fe_sub y x) y'))
     (fe_add (fe_mul (fe_sub y x) y') (fe_mul (fe_add y x) x')) (fe_add (fe_add z z) (fe_mul t z')) (Some (fe_sub (fe_add z z) (fe_mul t z'))))) as K.
  cbn zeta in *. destruct K as [K1 K2]. split; [rewrite K1; tauto|]. split; [contradiction|]. split; [contradiction|]. intros _ _. exact K2.
Qed.
Lemma negate_panics r : (panics (h_negate r) <-> h_cs r = 2 /\ no4 r) /\
  (h_cs r <> 2 -> h_negate r = Fail ErrUnsupported) /\ (h_cs r = 2 -> panics (h_negate r) \/ returns (h_negate r)).
Proof.
  unfold h_negate. destruct (is_sys_spec r P3) as [(V & ->)|(V & ->)]; cbn [negb number] in *;
    [|split; [split; [nope|tauto]|]; split; [reflexivity|intros; contradiction]].
  destruct r as [s [x|] [y|] [z|] [t|]]; cbn [h_cs] in V; subst s; unfold no4, no3; cbn;
   (split; [apply pan_iff; first [left; split; [tauto|apply is_pan]|right; split; [intros (_ & [[Q|[Q|Q]]|Q]); discriminate Q|apply not_pan]]|]);
   (split; [intros Q; elim Q; reflexivity|]); intros _; first [left; apply is_pan|right; eexists; reflexivity].
Qed.
Lemma string_panics g : (panics (h_string g) <-> no4 g) /\ (panics (h_string g) \/ returns (h_string g)).
Proof.
  unfold h_string. match goal with |- context [need4 g ?k] => destruct (need4_case g k) as [(N & ->)|(N & x & y & z & t & -> & _)] end.
  - split; [split; [auto|intros _; apply is_pan]|left; apply is_pan].
  - split; [split; [intros Q; destruct (not_pan _ Q)|tauto]|right; eexists; reflexivity].
Qed.

(** ** Equals *)
Definition fails {A} (x : out A) : bool := match x with Fail _ => true | _ => false end.
Lemma fails_no {A} (x : out A) e : fails x = false -> x <> Fail e.
Proof. intros H E. rewrite E in H. discriminate H. Qed.
Lemma fails_need {A B} (o : option A) (f : A -> out B) : (forall a, fails (f a) = false) -> fails (need o f) = false.
Proof. intros H. destruct o as [a|]; [apply H|reflexivity]. Qed.
Lemma fails_if {B} (b : bool) (x y : out B) : fails x = false -> fails y = false -> fails (if b then x else y) = false.
Proof. destruct b; auto. Qed.
Ltac nofail := apply fails_no; repeat first [apply fails_if|apply fails_need; intro|reflexivity].
Lemma no_fail_proj r g e : c_proj r g <> Fail e.
Proof. unfold c_proj. nofail. Qed.
Lemma no_fail_precomputed r g e : c_precomputed r g <> Fail e.
Proof. unfold c_precomputed. nofail. Qed.
Lemma no_fail_cached r g e : c_cached r g <> Fail e.
Proof. unfold c_cached. nofail. Qed.
Lemma recovering_cases r n x : (forall e, x <> Fail e) ->
  quiet_or_false (h_cs r) n (fst (recovering r n x)) (snd (recovering r n x)).
Proof.
  intros N. destruct x as [b|e|v]; cbn [recovering fst snd].
  - left. split; [reflexivity|exists b; reflexivity].
  - elim (N e). reflexivity.
  - right. split; [reflexivity|exists v; reflexivity].
Qed.
Lemma other_cases r g : exists n, (n = h_cs g \/ n = h_cs r) /\ quiet_or_false (h_cs r) n (fst (h_equals_other r g)) (snd (h_equals_other r g)).
Proof.
  unfold h_equals_other. destruct (h_to g (h_cs r)) as [g'|e|v] eqn:E.
  - exists (h_cs g'). assert (S1 : h_cs g' = h_cs r).
    { unfold h_to in E. destruct (system_cases (h_cs g)) as [(V & E1)|[(V & E1)|[(V & E1)|[(V & E1)|[(V & E1)|[(V & E1)|(V & E1)]]]]]]; rewrite E1 in E; try discriminate E;
      destruct (system_cases (h_cs r)) as [(V' & E2)|[(V' & E2)|[(V' & E2)|[(V' & E2)|[(V' & E2)|[(V' & E2)|(V' & E2)]]]]]]; rewrite E2 in E; try discriminate E;
      destruct g as [s [x|] [y|] [z|] [t|]]; cbn in E; try discriminate E;
      apply (f_equal (fun o => match o with Val a => h_cs a | _ => 0 end)) in E; cbn in E; lia. }
    split; [right; exact S1|]. apply recovering_cases. intros e. destruct (system (h_cs r)) as [[]|]; try discriminate;
      auto using no_fail_proj, no_fail_precomputed, no_fail_cached.
  - destruct (convert_no_error _ _ _ E).
  - exists (h_cs g). split; [left; reflexivity|]. right. split; [reflexivity|exists v; reflexivity].
Qed.
Lemma equals_different r g : h_cs r <> h_cs g ->
  exists n, (n = h_cs g \/ n = h_cs r) /\ quiet_or_false (h_cs r) n (fst (h_equals r g)) (snd (h_equals r g)).
Proof.
  intros N. unfold h_equals. apply Z.eqb_neq in N. rewrite N. cbn [negb]. apply other_cases.
Qed.
(** which comparisons panic *)
Lemma both_val b x y : both b (Some x) (Some y) <-> fe_equals x y = b.
Proof.
  split; [intros (x' & y' & E1 & E2 & E3)|intros E; exists x, y; auto].
  apply (f_equal (fun o => match o with Some a => a | None => x end)) in E1. apply (f_equal (fun o => match o with Some a => a | None => y end)) in E2.
  cbn in E1, E2. rewrite E1, E2. exact E3.
Qed.
Lemma missing_val x y : ~ missing (Some x) (Some y).
Proof. intros [H|H]; discriminate H. Qed.
Lemma both_none b a c : missing a c -> ~ both b a c.
Proof. intros [->| ->] (x & y & E1 & E2 & _); [discriminate E1|discriminate E2]. Qed.
Lemma pan_need {A} (o : option fe) (f : fe -> out A) : panics (need o f) <-> o = None \/ exists a, o = Some a /\ panics (f a).
Proof.
  destruct o as [a|]; cbn [need].
  - split; [intros P; right; exists a; auto|intros [Q|(b & E & P)]; [discriminate Q|]].
    apply (f_equal (fun o => match o with Some a => a | None => b end)) in E. cbn in E. rewrite E. exact P.
  - split; [auto|intros _; apply is_pan].
Qed.
Lemma pan_two {A} (a b : option fe) (f : fe -> fe -> out A) :
  panics (need a (fun x => need b (fun y => f x y))) <-> missing a b \/ exists x y, a = Some x /\ b = Some y /\ panics (f x y).
Proof.
  rewrite pan_need. unfold missing. split.
  - intros [Q|(x & E & P)]; [auto|]. apply pan_need in P. destruct P as [P|(y & E' & P)]; [auto|]. right. exists x, y. auto.
  - intros [[Q|Q]|(x & y & E1 & E2 & P)]; [auto| |].
    + destruct a as [x|]; [|auto]. right. exists x. split; [reflexivity|]. apply pan_need. auto.
    + right. exists x. split; [exact E1|]. apply pan_need. right. exists y. auto.
Qed.
Lemma pan_if {A} (a b : option fe) (u : out A) (v : fe -> fe -> out A) :
  panics (need a (fun x => need b (fun y => if fe_equals x y then u else v x y))) <->
  missing a b \/ (both true a b /\ panics u) \/ (exists x y, a = Some x /\ b = Some y /\ fe_equals x y = false /\ panics (v x y)).
Proof.
  rewrite (pan_two a b (fun x y => if fe_equals x y then u else v x y)). split.
  - intros [M|(x & y & E1 & E2 & P)]; [auto|]. right. destruct (fe_equals x y) eqn:E.
    + left. split; [exists x, y; auto|exact P].
    + right. exists x, y. auto.
  - intros [M|[((x & y & E1 & E2 & E) & P)|(x & y & E1 & E2 & E & P)]]; [auto| |]; right; exists x, y; rewrite E; auto.
Qed.
Lemma no_pan_val {A} (a : A) : panics (Val a) <-> False.
Proof. split; [apply not_pan|tauto]. Qed.
Lemma pan_four (a b c d : option fe) (f : fe -> fe -> fe -> fe -> bool) :
  panics (need a (fun x => need b (fun y => need c (fun x' => need d (fun y' => Val (f x y x' y')))))) <-> missing a c \/ missing b d.
Proof.
  unfold missing. destruct a as [x|], b as [y|], c as [x'|], d as [y'|]; cbn [need];
   first [split; [intros P; destruct (not_pan _ P)|intros [[Q|Q]|[Q|Q]]; discriminate Q]|split; [auto|intros _; apply is_pan]].
Qed.
Lemma pan_six (a b c a' b' c' : option fe) (f : fe -> fe -> fe -> fe -> fe -> fe -> bool) :
  panics (need a (fun x => need b (fun y => need c (fun t => need a' (fun x' => need b' (fun y' => need c' (fun t' => Val (f x y t x' y' t')))))))) <->
  missing a a' \/ missing b b' \/ missing c c'.
Proof.
  unfold missing. destruct a as [x|], b as [y|], c as [t|], a' as [x'|], b' as [y'|], c' as [t'|]; cbn [need];
   first [split; [intros P; destruct (not_pan _ P)|intros [[Q|Q]|[[Q|Q]|[Q|Q]]]; discriminate Q]|split; [auto|intros _; apply is_pan]].
Qed.
Lemma chain_two a b c d : panics (need a (fun x => need b (fun x' => if fe_equals x x' then
    need c (fun y => need d (fun y' => Val (fe_equals y y'))) else Val false))) <-> first_missing [(a, b); (c, d)].
Proof.
  cbn [first_missing]. rewrite (pan_if a b _ (fun _ _ => Val false)). rewrite (pan_two c d (fun y y' => Val (fe_equals y y'))).
  split.
  - intros [M|[(B1 & [M|(y & y' & _ & _ & P)])|(x & y & _ & _ & _ & P)]]; [auto|auto|destruct (not_pan _ P)|destruct (not_pan _ P)].
  - intros [M|(B1 & [M|(_ & [])])]; auto.
Qed.
Lemma chain_three a b c d e f : panics (need a (fun x => need b (fun x' => if fe_equals x x' then
    need c (fun y => need d (fun y' => if fe_equals y y' then need e (fun z => need f (fun z' => Val (fe_equals z z'))) else Val false)) else Val false))) <->
  first_missing [(a, b); (c, d); (e, f)].
Proof.
  change (first_missing [(a, b); (c, d); (e, f)]) with (missing a b \/ (both true a b /\ first_missing [(c, d); (e, f)])).
  rewrite <- chain_two. rewrite (pan_if a b _ (fun _ _ => Val false)).
  split.
  - intros [M|[Q|(x & y & _ & _ & _ & P)]]; [auto|auto|destruct (not_pan _ P)].
  - intros [M|Q]; auto.
Qed.
Lemma proj_panics r g : panics (c_proj r g) <->
  missing (hZ r) (hZ g) \/ (both true (hZ r) (hZ g) /\ first_missing [(hX r, hX g); (hY r, hY g)]) \/
  (both false (hZ r) (hZ g) /\ (missing (hX r) (hX g) \/ missing (hY r) (hY g))).
Proof.
  unfold c_proj. rewrite (pan_if (hZ r) (hZ g) _ (fun z z' => need (hX r) (fun x => need (hY r) (fun y => need (hX g) (fun x' => need (hY g) (fun y' =>
        Val (fe_equals (fe_mul x z') (fe_mul x' z) && fe_equals (fe_mul y z') (fe_mul y' z)))))))).
  rewrite chain_two. split.
  - intros [M|[Q|(z & z' & E1 & E2 & E & P)]]; [auto|auto|]. right. right. split; [exists z, z'; auto|].
    apply (pan_four (hX r) (hY r) (hX g) (hY g) (fun x y x' y' => fe_equals (fe_mul x z') (fe_mul x' z) && fe_equals (fe_mul y z') (fe_mul y' z))). exact P.
  - intros [M|[Q|((z & z' & E1 & E2 & E) & P)]]; [auto|auto|]. right. right. exists z, z'. split; [exact E1|]. split; [exact E2|]. split; [exact E|].
    apply (pan_four (hX r) (hY r) (hX g) (hY g) (fun x y x' y' => fe_equals (fe_mul x z') (fe_mul x' z) && fe_equals (fe_mul y z') (fe_mul y' z))). exact P.
Qed.
Lemma precomputed_panics r g : panics (c_precomputed r g) <-> first_missing [(hX r, hX g); (hY r, hY g); (hZ r, hZ g)].
Proof. apply chain_three. Qed.
Lemma cached_panics r g : panics (c_cached r g) <->
  missing (hZ r) (hZ g) \/ (both true (hZ r) (hZ g) /\ first_missing [(hX r, hX g); (hY r, hY g); (hT r, hT g)]) \/
  (both false (hZ r) (hZ g) /\ (missing (hX r) (hX g) \/ missing (hY r) (hY g) \/ missing (hT r) (hT g))).
Proof.
  unfold c_cached. rewrite (pan_if (hZ r) (hZ g) _ (fun z z' => need (hX r) (fun x => need (hY r) (fun y => need (hT r) (fun t =>
      need (hX g) (fun x' => need (hY g) (fun y' => need (hT g) (fun t' =>
        Val (fe_equals (fe_mul x z') (fe_mul x' z) && fe_equals (fe_mul y z') (fe_mul y' z) && fe_equals (fe_mul t z') (fe_mul t' z)))))))))).
  rewrite chain_three.
  assert (K : forall z z', panics (need (hX r) (fun x => need (hY r) (fun y => need (hT r) (fun t =>
      need (hX g) (fun x' => need (hY g) (fun y' => need (hT g) (fun t' =>
        Val (fe_equals (fe_mul x z') (fe_mul x' z) && fe_equals (fe_mul y z') (fe_mul y' z) && fe_equals (fe_mul t z') (fe_mul t' z))))))))) <->
      (missing (hX r) (hX g) \/ missing (hY r) (hY g) \/ missing (hT r) (hT g))).
  { intros z z'. apply (pan_six _ _ _ _ _ _ (fun x y t x' y' t' => fe_equals (fe_mul x z') (fe_mul x' z) && fe_equals (fe_mul y z') (fe_mul y' z) && fe_equals (fe_mul t z') (fe_mul t' z))). }
  split.
  - intros [M|[Q|(z & z' & E1 & E2 & E & P)]]; [auto|auto|]. right. right. split; [exists z, z'; auto|]. apply (K z z'). exact P.
  - intros [M|[Q|((z & z' & E1 & E2 & E) & P)]]; [auto|auto|]. right. right. exists z, z'. split; [exact E1|]. split; [exact E2|]. split; [exact E|].
    apply (K z z'). exact P.
Qed.
(** ** Equals, complete *)
Lemma equals_same r g : h_cs r = h_cs g ->
  (~ (1 <= h_cs r <= 5) -> h_equals r g = ([], Pan PSystem)) /\
  (h_cs r <> 3 -> fst (h_equals r g) = []) /\
  (h_cs r = 1 \/ h_cs r = 2 -> (panics (snd (h_equals r g)) <->
     missing (hZ r) (hZ g) \/ (both true (hZ r) (hZ g) /\ first_missing [(hX r, hX g); (hY r, hY g)]) \/
     (both false (hZ r) (hZ g) /\ (missing (hX r) (hX g) \/ missing (hY r) (hY g))))) /\
  (h_cs r = 4 -> (panics (snd (h_equals r g)) <-> first_missing [(hX r, hX g); (hY r, hY g); (hZ r, hZ g)])) /\
  (h_cs r = 5 -> (panics (snd (h_equals r g)) <->
     missing (hZ r) (hZ g) \/ (both true (hZ r) (hZ g) /\ first_missing [(hX r, hX g); (hY r, hY g); (hT r, hT g)]) \/
     (both false (hZ r) (hZ g) /\ (missing (hX r) (hX g) \/ missing (hY r) (hY g) \/ missing (hT r) (hT g))))) /\
  (h_cs r = 3 -> (panics (snd (h_equals r g)) <-> no4 r) /\
     (~ no4 r -> exists n, (n = 3 \/ n = 1) /\ quiet_or_false 1 n (fst (h_equals r g)) (snd (h_equals r g)))) /\
  (panics (snd (h_equals r g)) \/ returns (snd (h_equals r g))).
Proof.
  intros E. unfold h_equals. replace (h_cs r =? h_cs g) with true by (symmetry; apply Z.eqb_eq; exact E). cbn [negb].
  destruct (system_cases (h_cs r)) as [(V & ->)|[(V & ->)|[(V & ->)|[(V & ->)|[(V & ->)|[(V & ->)|(V & ->)]]]]]].
  - split; [reflexivity|]. split; [reflexivity|]. split; [lia|]. split; [lia|]. split; [lia|]. split; [lia|]. left. apply is_pan.
  - split; [lia|]. split; [reflexivity|]. split; [intros _; apply proj_panics|]. split; [lia|]. split; [lia|]. split; [lia|].
    cbn [snd]. destruct (out_cases (c_proj r g)) as [H|[(e & H)|H]]; [right; exact H|destruct (no_fail_proj _ _ _ H)|left; exact H].
  - split; [lia|]. split; [reflexivity|]. split; [intros _; apply proj_panics|]. split; [lia|]. split; [lia|]. split; [lia|].
    cbn [snd]. destruct (out_cases (c_proj r g)) as [H|[(e & H)|H]]; [right; exact H|destruct (no_fail_proj _ _ _ H)|left; exact H].
  - split; [lia|]. split; [lia|]. split; [lia|]. split; [lia|]. split; [lia|].
    pose proof (convert_panics r (number P2)) as C. change (number P2) with 1 in *.
    assert (I : In (h_cs r, 1) pairs) by (rewrite V; unfold pairs; cbn [In]; do 4 right; left; reflexivity).
    destruct (h_to r 1) as [r2|e|v] eqn:H1.
    + assert (NP : ~ no4 r) by (intros Q; apply (not_pan r2), C; right; right; auto).
      assert (S2 : h_cs r2 = 1).
      { unfold h_to in H1. rewrite V in H1. cbn in H1. unfold no4, no3 in NP. destruct (hX r), (hT r), (hY r), (hZ r); cbn [need] in H1; try tauto.
        apply (f_equal (fun o => match o with Val a => h_cs a | _ => 0 end)) in H1. cbn in H1. lia. }
      destruct (other_cases r2 g) as (n & N & Q). rewrite S2 in N, Q. rewrite <- E, V in N.
      assert (R : returns (snd (h_equals_other r2 g))) by (destruct Q as [(_ & Q)|(-> & _)]; [exact Q|exists false; reflexivity]).
      split; [|right; exact R]. intros _. split; [|intros _; exists n; split; [exact N|exact Q]].
      split; [|tauto]. destruct R as (b & ->). intros P. destruct (not_pan _ P).
    + destruct (convert_no_error _ _ _ H1).
    + assert (NP : no4 r).
      { assert (P : panics (@Pan hand v)) by apply is_pan. apply C in P. destruct P as [P|[P|P]]; [contradiction|lia|tauto]. }
      cbn [fst snd]. split; [|left; apply is_pan]. intros _. split; [split; [auto|intros _; apply is_pan]|contradiction].
  - split; [lia|]. split; [reflexivity|]. split; [lia|]. split; [intros _; apply precomputed_panics|]. split; [lia|]. split; [lia|].
    cbn [snd]. destruct (out_cases (c_precomputed r g)) as [H|[(e & H)|H]]; [right; exact H|destruct (no_fail_precomputed _ _ _ H)|left; exact H].
  - split; [lia|]. split; [reflexivity|]. split; [lia|]. split; [lia|]. split; [intros _; apply cached_panics|]. split; [lia|].
    cbn [snd]. destruct (out_cases (c_cached r g)) as [H|[(e & H)|H]]; [right; exact H|destruct (no_fail_cached _ _ _ H)|left; exact H].
  - split; [reflexivity|]. split; [reflexivity|]. split; [lia|]. split; [lia|]. split; [lia|]. split; [lia|]. left. apply is_pan.
Qed.
Lemma refused g n : ~ In (h_cs g, n) pairs -> h_to g n = Pan (refusal (h_cs g)).
Proof.
  intros N. unfold h_to, refusal.
  destruct (system_cases (h_cs g)) as [(V & E1)|[(V & E1)|[(V & E1)|[(V & E1)|[(V & E1)|[(V & E1)|(V & E1)]]]]]]; rewrite E1; rewrite ?V in *;
  try (cbn [Z.leb Z.compare andb Pos.compare Pos.compare_cont]; reflexivity);
  try (destruct (system_cases n) as [(V' & E2)|[(V' & E2)|[(V' & E2)|[(V' & E2)|[(V' & E2)|[(V' & E2)|(V' & E2)]]]]]]; rewrite E2; rewrite ?V' in *;
    first [reflexivity|elim N; unfold pairs; cbn [In]; tauto]).
  destruct (Z.leb_spec 1 (h_cs g)), (Z.leb_spec (h_cs g) 5); try reflexivity; lia.
Qed.
(** which values the panics have *)
Definition nil_only {A} (x : out A) : bool := match x with Pan PNil => true | Pan _ => false | _ => true end.
Lemma nil_only_v {A} (x : out A) v : nil_only x = true -> x = Pan v -> v = PNil.
Proof. intros H E. rewrite E in H. destruct v; try discriminate H. reflexivity. Qed.
Lemma nil_need {A B} (o : option A) (f : A -> out B) : (forall a, nil_only (f a) = true) -> nil_only (need o f) = true.
Proof. intros H. destruct o as [a|]; [apply H|reflexivity]. Qed.
Lemma nil_if {B} (b : bool) (x y : out B) : nil_only x = true -> nil_only y = true -> nil_only (if b then x else y) = true.
Proof. destruct b; auto. Qed.
Lemma nil_val {A} (a : A) : nil_only (Val a) = true.
Proof. exact eq_refl. Qed.
Lemma nil_fail {A} (e : err) : nil_only (@Fail A e) = true.
Proof. exact eq_refl. Qed.
Lemma nil_of_res {A} (x : res A) : nil_only (of_res x) = true.
Proof. destruct x; reflexivity. Qed.
Lemma nil_bind {A B} (x : out A) (f : A -> out B) : nil_only x = true -> (forall a, nil_only (f a) = true) -> nil_only (obind x f) = true.
Proof. intros H1 H2. destruct x as [a|e|v]; cbn [obind]; [apply H2|reflexivity|exact H1]. Qed.
Ltac nil := repeat first [apply nil_val|apply nil_fail|apply nil_of_res|apply nil_if|apply nil_need; intro].
Lemma nil_to g n : In (h_cs g, n) pairs -> nil_only (h_to g n) = true.
Proof.
  unfold pairs. cbn [In]. unfold h_to.
  intros [E|[E|[E|[E|[E|[E|[E|[E|[E|[]]]]]]]]]]; injection E as <- <-; cbn [system Z.eqb Pos.eqb]; nil.
Qed.
Lemma nil_encode_proj g : nil_only (h_encode_proj g) = true.
Proof. unfold h_encode_proj. cbn zeta. nil. Qed.
Lemma nil_satisfies_proj g : nil_only (h_satisfies_proj g) = true.
Proof. unfold h_satisfies_proj. cbn zeta. nil. Qed.
Lemma refusal_range s : 1 <= s <= 3 \/ ~ (1 <= s <= 3).
Proof. lia. Qed.
Lemma value_by_P2 {A} (f : hand -> out A) g v :
  (forall g, nil_only (f g) = true) ->
  match system (h_cs g) with Some P2 | Some P3 => f g | _ => obind (h_to g (number P2)) f end = Pan v ->
  v = if (1 <=? h_cs g) && (h_cs g <=? 3) then PNil else refusal (h_cs g).
Proof.
  intros N.
  assert (R : ~ (1 <= h_cs g <= 3) -> obind (h_to g (number P2)) f = Pan v -> v = refusal (h_cs g)).
  { intros H. rewrite refused; [cbn [obind]; intros E; congruence|]. unfold pairs. cbn [In number].
    intros [E|[E|[E|[E|[E|[E|[E|[E|[E|[]]]]]]]]]]; apply (f_equal fst) in E as E1; apply (f_equal snd) in E as E2; cbn [fst snd] in *; lia. }
  assert (B : (1 <=? h_cs g) && (h_cs g <=? 3) = true <-> 1 <= h_cs g <= 3) by (rewrite andb_true_iff, !Z.leb_le; tauto).
  destruct (system_cases (h_cs g)) as [(V & E1)|[(V & E1)|[(V & E1)|[(V & E1)|[(V & E1)|[(V & E1)|(V & E1)]]]]]]; rewrite E1.
  1,5,6,7: (intros E; rewrite (R ltac:(lia) E); destruct ((1 <=? h_cs g) && (h_cs g <=? 3)); [exfalso; assert (1 <= h_cs g <= 3) by (apply B; reflexivity); lia|reflexivity]).
  1,2,3: replace ((1 <=? h_cs g) && (h_cs g <=? 3)) with true by (symmetry; apply B; lia).
  1,2: apply nil_only_v; apply N.
  apply nil_only_v. apply nil_bind; [|exact N]. apply nil_to. rewrite V. unfold pairs, number. cbn [In]. do 4 right. left. reflexivity.
Qed.
Lemma value_encode g v : h_encode g = Pan v -> v = if (1 <=? h_cs g) && (h_cs g <=? 3) then PNil else refusal (h_cs g).
Proof. apply value_by_P2. apply nil_encode_proj. Qed.
Lemma value_satisfies g v : h_satisfies g = Pan v -> v = if (1 <=? h_cs g) && (h_cs g <=? 3) then PNil else refusal (h_cs g).
Proof. apply value_by_P2. apply nil_satisfies_proj. Qed.
Lemma value_dbl g v : h_dbl g = Pan v -> v = if (h_cs g =? 1) || (h_cs g =? 2) then PNil else PUnsupportedCall.
Proof.
  unfold h_dbl. cbn zeta.
  destruct (system_cases (h_cs g)) as [(V & E1)|[(V & E1)|[(V & E1)|[(V & E1)|[(V & E1)|[(V & E1)|(V & E1)]]]]]]; rewrite E1; rewrite ?V; cbn [Z.eqb Pos.eqb orb];
    try (intros E; congruence); try (apply nil_only_v; nil).
  destruct (Z.eqb_spec (h_cs g) 1), (Z.eqb_spec (h_cs g) 2); try lia. cbn [orb]. intros E; congruence.
Qed.
Lemma value_add r g v :
  (h_add r g = Pan v -> v = if h_cs r =? 2 then if h_cs g =? 5 then PNil else PIllegal else PUnsupported) /\
  (h_subtract r g = Pan v -> v = if h_cs r =? 2 then if h_cs g =? 5 then PNil else PIllegal else PUnsupported) /\
  (h_precomputedSubtract r g = Pan v -> v = if h_cs r =? 2 then if h_cs g =? 4 then PNil else PIllegal else PUnsupported) /\
  (h_precomputedAdd r g = Pan v -> v = PNil).
Proof.
  unfold h_add, h_subtract, h_precomputedAdd, h_precomputedSubtract, is_sys, need4. cbn zeta. cbn [number].
  split; [|split; [|split]].
  4: (apply nil_only_v; destruct (h_cs r =? 2), (h_cs g =? 4); cbn [negb]; nil).
  all: destruct (h_cs r =? 2); cbn [negb]; [|intros E; congruence].
  1,2: destruct (h_cs g =? 5); cbn [negb]; [|intros E; congruence].
  3: destruct (h_cs g =? 4); cbn [negb]; [|intros E; congruence].
  all: apply nil_only_v; nil.
Qed.
Lemma nil_subtract r g : h_cs r = 2 -> h_cs g = 5 -> nil_only (h_subtract r g) = true.
Proof.
  intros E1 E2. pose proof (value_add r g) as H. destruct (h_subtract r g) as [a|e|v]; try reflexivity.
  destruct (H v) as (_ & H1 & _). rewrite E1, E2 in H1. rewrite (H1 eq_refl). reflexivity.
Qed.
Lemma to_system g n g' : h_to g n = Val g' -> h_cs g' = n.
Proof.
  intros E. unfold h_to in E. destruct (system_cases (h_cs g)) as [(V & E1)|[(V & E1)|[(V & E1)|[(V & E1)|[(V & E1)|[(V & E1)|(V & E1)]]]]]]; rewrite E1 in E; try discriminate E;
  destruct (system_cases n) as [(V' & E2)|[(V' & E2)|[(V' & E2)|[(V' & E2)|[(V' & E2)|[(V' & E2)|(V' & E2)]]]]]]; rewrite E2 in E; try discriminate E;
  destruct g as [s [x|] [y|] [z|] [t|]]; cbn in E; try discriminate E;
  apply (f_equal (fun o => match o with Val a => h_cs a | _ => 0 end)) in E; cbn in E; lia.
Qed.
Lemma subtract_system r g s : h_subtract r g = Val s -> h_cs s = 3.
Proof.
  unfold h_subtract, is_sys, need4. cbn zeta. destruct (h_cs r =? number P3), (h_cs g =? number CACHED); cbn [negb]; try discriminate.
  destruct (hX r), (hY r), (hZ r), (hT r), (hX g), (hY g), (hZ g), (hT g); cbn [need]; try discriminate.
  intros E. apply (f_equal (fun o => match o with Val a => h_cs a | _ => 3 end)) in E. cbn in E. lia.
Qed.
Lemma value_negate r v : h_negate r = Pan v -> v = PNil.
Proof.
  apply nil_only_v. unfold h_negate, is_sys. destruct (Z.eqb_spec (h_cs r) (number P3)) as [E|E]; cbn [negb]; [|apply nil_fail].
  destruct (h_to r (number CACHED)) as [c|e|v'] eqn:T.
  2: destruct (convert_no_error _ _ _ T).
  - cbn [obind]. apply to_system in T.
    destruct (h_subtract h_zero c) as [s|e|v'] eqn:S; cbn [obind].
    + apply subtract_system in S. apply nil_to. rewrite S. unfold pairs, number. cbn [In]. do 5 right. left. reflexivity.
    + apply nil_fail.
    + pose proof (nil_subtract h_zero c eq_refl T) as N. rewrite S in N. exact N.
  - cbn [obind]. pose proof (nil_to r (number CACHED)) as N. rewrite T in N. apply N. rewrite E. unfold pairs, number. cbn [In]. do 3 right. left. reflexivity.
Qed.
Lemma value_string g v : h_string g = Pan v -> v = PNil.
Proof. apply nil_only_v. unfold h_string, need4. nil. Qed.
Lemma nil_proj r g : nil_only (c_proj r g) = true.
Proof. unfold c_proj. nil. Qed.
Lemma nil_precomputed r g : nil_only (c_precomputed r g) = true.
Proof. unfold c_precomputed. nil. Qed.
Lemma nil_cached r g : nil_only (c_cached r g) = true.
Proof. unfold c_cached. nil. Qed.
Lemma value_other r g v a b : h_cs r <> 3 -> h_cs r <> 4 -> In (h_cs g, h_cs r) pairs -> In (Printed v a b) (fst (h_equals_other r g)) -> v = PNil.
Proof.
  intros N3 N4 I. unfold h_equals_other. pose proof (nil_to _ _ I) as T. destruct (h_to g (h_cs r)) as [g'|e|v'] eqn:E.
  - set (x := match system (h_cs r) with Some P2 | Some P3 => c_proj r g' | Some PRECOMPUTED => c_precomputed r g' | Some CACHED => c_cached r g' | _ => Pan PSystem end).
    assert (N : nil_only x = true).
    { assert (S : h_cs r = 1 \/ h_cs r = 2 \/ h_cs r = 5).
      { unfold pairs in I. cbn [In] in I. destruct I as [I|[I|[I|[I|[I|[I|[I|[I|[I|[]]]]]]]]]]; apply (f_equal snd) in I; cbn [snd] in I; lia. }
      subst x. destruct S as [->|[->| ->]]; cbn [system Z.eqb Pos.eqb]; [apply nil_proj|apply nil_proj|apply nil_cached]. }
    generalize dependent x. intros x N. destruct x as [b'|e|w]; cbn [recovering fst In]; try contradiction.
    intros [Q|[]]. apply (nil_only_v _ v N). congruence.
  - cbn [fst In]. contradiction.
  - cbn [fst In]. intros [Q|[]]. apply (nil_only_v _ v T). congruence.
Qed.
Lemma value_equals r g :
  (forall v, snd (h_equals r g) = Pan v -> v = if (1 <=? h_cs r) && (h_cs r <=? 5) then PNil else PSystem) /\
  (forall v a b, In (h_cs g, h_cs r) pairs -> In (Printed v a b) (fst (h_equals r g)) -> v = PNil).
Proof.
  destruct (Z.eqb_spec (h_cs r) (h_cs g)) as [E|E].
  - unfold h_equals. replace (h_cs r =? h_cs g) with true by (symmetry; apply Z.eqb_eq; exact E). cbn [negb].
    destruct (system_cases (h_cs r)) as [(V & E1)|[(V & E1)|[(V & E1)|[(V & E1)|[(V & E1)|[(V & E1)|(V & E1)]]]]]]; rewrite E1; rewrite <- E, ?V; cbn [Z.leb Z.compare Pos.compare Pos.compare_cont andb fst snd].
    1: (split; [intros v Q; congruence|intros v a b _ []]).
    1,2: (split; [intros v; apply nil_only_v; apply nil_proj|intros v a b _ []]).
    2: (split; [intros v; apply nil_only_v; apply nil_precomputed|intros v a b _ []]).
    2: (split; [intros v; apply nil_only_v; apply nil_cached|intros v a b _ []]).
    2: (split; [|intros v a b _ []]; intros v Q; destruct (Z.leb_spec 1 (h_cs r)), (Z.leb_spec (h_cs r) 5); cbn [andb]; [lia|congruence..]).
    assert (I : In (h_cs r, number P2) pairs) by (rewrite V; unfold pairs, number; cbn [In]; do 4 right; left; reflexivity).
    pose proof (nil_to _ _ I) as T. destruct (h_to r (number P2)) as [r2|e|v2] eqn:H1; cbn [fst snd].
    + apply to_system in H1. change (number P2) with 1 in H1. destruct (other_cases r2 g) as (n & N & Q). split.
      * intros v P. exfalso. destruct Q as [(_ & b & Q)|(Q & _)]; rewrite Q in P; discriminate P.
      * intros v a b _. apply value_other; [lia|lia|]. rewrite V in I. rewrite H1, <- E, V. exact I.
    + destruct (convert_no_error _ _ _ H1).
    + split; [|intros v a b _ []]. intros v P. apply (nil_only_v _ v T). congruence.
  - split.
    + intros v P. exfalso. destruct (equals_different r g E) as (n & N & [(_ & b & Q)|(Q & _)]); rewrite Q in P; discriminate P.
    + intros v a b I. unfold h_equals. apply Z.eqb_neq in E as E'. rewrite E'. cbn [negb]. apply value_other; [| |exact I].
      all: intros S; unfold pairs in I; cbn [In] in I; destruct I as [I|[I|[I|[I|[I|[I|[I|[I|[I|[]]]]]]]]]]; apply (f_equal fst) in I as I1; apply (f_equal snd) in I as I2; cbn [fst snd] in *; lia.
Qed.
Lemma panic_values r g v :
  ((forall n, In (h_cs g, n) pairs -> h_to g n = Pan v -> v = PNil) /\
   (h_encode g = Pan v \/ h_satisfies g = Pan v -> v = if (1 <=? h_cs g) && (h_cs g <=? 3) then PNil else refusal (h_cs g)) /\
   (h_dbl g = Pan v -> v = if (h_cs g =? 1) || (h_cs g =? 2) then PNil else PUnsupportedCall)) /\
  ((h_add r g = Pan v \/ h_subtract r g = Pan v -> v = if h_cs r =? 2 then if h_cs g =? 5 then PNil else PIllegal else PUnsupported) /\
   (h_precomputedSubtract r g = Pan v -> v = if h_cs r =? 2 then if h_cs g =? 4 then PNil else PIllegal else PUnsupported) /\
   (h_precomputedAdd r g = Pan v \/ h_negate r = Pan v \/ h_string r = Pan v -> v = PNil)) /\
  ((snd (h_equals r g) = Pan v -> v = if (1 <=? h_cs r) && (h_cs r <=? 5) then PNil else PSystem) /\
   (forall a b, In (h_cs g, h_cs r) pairs -> In (Printed v a b) (fst (h_equals r g)) -> v = PNil)).
Proof.
  destruct (value_add r g v) as (A1 & A2 & A3 & A4). destruct (value_equals r g) as (E1 & E2).
  split; [split; [|split]|split; [split; [|split]|split]].
  - intros n I. apply nil_only_v. apply nil_to. exact I.
  - intros [H|H]; [exact (value_encode _ _ H)|exact (value_satisfies _ _ H)].
  - apply value_dbl.
  - intros [H|H]; [exact (A1 H)|exact (A2 H)].
  - exact A3.
  - intros [H|[H|H]]; [exact (A4 H)|exact (value_negate _ _ H)|exact (value_string _ _ H)].
  - apply E1.
  - intros a b. apply E2.
Qed.
Lemma equals_refused r g : h_cs r <> h_cs g -> ~ In (h_cs g, h_cs r) pairs ->
  h_equals r g = ([Printed (refusal (h_cs g)) (h_cs r) (h_cs g)], Val false).
Proof.
  intros N I. unfold h_equals, h_equals_other. apply Z.eqb_neq in N. rewrite N. cbn [negb]. rewrite (refused _ _ I). reflexivity.
Qed.
Lemma whole_four g : whole g -> h_cs g = 2 \/ h_cs g = 3 \/ h_cs g = 5 -> ~ no4 g.
Proof. unfold whole, no4. tauto. Qed.
Lemma equals_complete r g : h_cs r <> h_cs g -> In (h_cs g, h_cs r) pairs -> whole r -> whole g ->
  exists b, h_equals r g = ([], Val b).
Proof.
  intros N I (Nr & Tr) (Ng & Tg). unfold h_equals. assert (N' := N). apply Z.eqb_neq in N'. rewrite N'. cbn [negb].
  unfold h_equals_other, h_to, no3, pairs in *. destruct r as [s x y z t], g as [s' x' y' z' t']. cbn [h_cs hX hY hZ hT] in *.
  destruct x as [x|]; [|tauto]. destruct y as [y|]; [|tauto]. destruct z as [z|]; [|tauto].
  destruct x' as [x'|]; [|tauto]. destruct y' as [y'|]; [|tauto]. destruct z' as [z'|]; [|tauto]. clear Nr Ng.
  cbn [In] in I. repeat destruct I as [I|I]; try contradiction;
    pose proof (f_equal fst I) as I1; pose proof (f_equal snd I) as I2; cbn [fst snd] in I1, I2; clear I; subst s s'; try (elim N; reflexivity).
  - change (system 2) with (Some P3). change (system 1) with (Some P2). cbv iota. cbn [need number h_cs].
    rewrite proj_agrees. eexists; reflexivity.
  - destruct t as [t|]; [|elim Tr; auto]. destruct t' as [t'|]; [|elim Tg; auto].
    change (system 2) with (Some P3). change (system 5) with (Some CACHED). cbv iota. cbn [need number h_cs].
    match goal with |- context [c_cached (Hand ?c (Some ?a) (Some ?b) (Some ?u) ?v) (Hand ?c' (Some ?a') (Some ?b') (Some ?u') ?v')] =>
      pose proof (cached_agrees c c' a b u v a' b' u' v') as Q end.
    unfold eq_cached in Q. cbn [gX gY gZ gT] in Q. cbn [deref bind] in Q.
    destruct (fe_equals z z').
    + destruct (fe_equals x (fe_add y' x')); [destruct (fe_equals y (fe_sub y' x'))|]; cbn [andb negb agrees] in Q; rewrite Q; eexists; reflexivity.
    + cbn [agrees] in Q. rewrite Q. eexists; reflexivity.
  - destruct t' as [t'|]; [|elim Tg; auto]. change (system 3) with (Some P1xP1). change (system 1) with (Some P2). cbv iota. cbn [need number h_cs mk].
    unfold mk. cbn [h_cs number]. rewrite proj_agrees. eexists; reflexivity.
  - destruct t' as [t'|]; [|elim Tg; auto]. change (system 3) with (Some P1xP1). change (system 2) with (Some P3). cbv iota. cbn [need number h_cs mk].
    unfold mk. cbn [h_cs number]. rewrite proj_agrees. eexists; reflexivity.
Qed.
Lemma all_agree r g c :
  agrees lift (h_to (lift g) (number c)) (to_cs g c) /\ agrees (fun a => a) (h_encode (lift g)) (g_encode g) /\
  agrees (fun a => a) (h_satisfies (lift g)) (g_satisfies g) /\ agrees lift (h_dbl (lift g)) (g_dbl g) /\
  agrees lift (h_add (lift r) (lift g)) (g_add r g) /\ agrees lift (h_subtract (lift r) (lift g)) (g_subtract r g) /\
  agrees lift (h_precomputedAdd (lift r) (lift g)) (g_precomputedAdd r g) /\
  agrees lift (h_precomputedSubtract (lift r) (lift g)) (g_precomputedSubtract r g) /\
  agrees lift (h_negate (lift r)) (g_negate r) /\ agrees (fun a => a) (h_string (lift g)) (g_string g) /\
  agrees (fun a => a) (snd (h_equals (lift r) (lift g))) (g_equals r g).
Proof.
  pose proof (add_agrees r g) as [A1 A2]. pose proof (precomputed_agrees r g) as [B1 B2].
  repeat split; auto using to_agrees, encode_agrees, satisfies_agrees, dbl_agrees, negate_agrees, string_agrees, equals_agrees.
Qed.
Lemma convert_all g n :
  (panics (h_to g n) <->
   ~ In (h_cs g, n) pairs \/
   ((h_cs g = 2 /\ n = 5) /\ (hX g = None \/ hY g = None \/ hT g = None)) \/
   ((h_cs g = 3 /\ (n = 1 \/ n = 2)) /\ no4 g)) /\
  (~ In (h_cs g, n) pairs -> h_to g n = Pan (refusal (h_cs g))) /\
  (forall e, h_to g n <> Fail e).
Proof. split; [apply convert_panics|]. split; [apply refused|apply convert_no_error]. Qed.
Lemma equals_other_P1 x y z s' x' y' z' t' : s' = 3 ->
  exists b, h_equals_other (mk P2 x y z None) (Hand s' (Some x') (Some y') (Some z') (Some t')) = ([], Val b).
Proof.
  intros ->. unfold h_equals_other, h_to, mk. cbn [h_cs number]. change (system 3) with (Some P1xP1). change (system 1) with (Some P2). cbv iota. cbn [need number h_cs hX hY hZ hT].
  rewrite proj_agrees. eexists; reflexivity.
Qed.
Lemma equals_P1 r g : h_cs r = 3 -> h_cs g = 3 -> ~ no4 r -> ~ no4 g -> exists b, h_equals r g = ([], Val b).
Proof.
  unfold no4, no3. destruct r as [s x y z t], g as [s' x' y' z' t']. cbn [h_cs hX hY hZ hT]. intros -> -> Nr Ng.
  destruct x as [x|]; [|tauto]. destruct y as [y|]; [|tauto]. destruct z as [z|]; [|tauto]. destruct t as [t|]; [|tauto].
  destruct x' as [x'|]; [|tauto]. destruct y' as [y'|]; [|tauto]. destruct z' as [z'|]; [|tauto]. destruct t' as [t'|]; [|tauto]. clear Nr Ng.
  unfold h_equals. cbn [h_cs]. change (3 =? 3) with true. cbn [negb]. change (system 3) with (Some P1xP1). cbv iota.
  unfold h_to at 1. cbn [h_cs]. change (system 3) with (Some P1xP1). change (system (number P2)) with (Some P2). cbv iota. cbn [need hX hY hZ hT].
  apply equals_other_P1. reflexivity.
Qed.
Lemma equals_silent r g : whole r -> whole g -> h_cs r = h_cs g \/ In (h_cs g, h_cs r) pairs -> equals_stdout r g = [].
Proof.
  intros Nr Ng K. unfold equals_stdout. destruct (Z.eq_dec (h_cs r) (h_cs g)) as [E|N].
  - destruct (Z.eq_dec (h_cs r) 3) as [V|V].
    + destruct (equals_P1 r g V ltac:(lia) (whole_four r Nr ltac:(lia)) (whole_four g Ng ltac:(lia))) as (b & ->). reflexivity.
    + destruct (equals_same r g E) as (_ & Q & _). rewrite (Q V). reflexivity.
  - destruct K as [K|K]; [contradiction|]. destruct (equals_complete r g N K Nr Ng) as (b & ->). reflexivity.
Qed.
Lemma lift_whole g : (g_cs g = P3 \/ g_cs g = P1xP1 \/ g_cs g = CACHED -> gT g <> None) -> whole (lift g).
Proof.
  intros T. split; [unfold no3; cbn; intros [H|[H|H]]; discriminate H|]. cbn. intros H. apply T.
  destruct (g_cs g); cbn in H; auto; lia.
Qed.
(** ** Examples *)
Definition base_hand : hand := Hand 2 (Some fe_zero) (Some fe_one) (Some fe_one) (Some fe_zero).
Lemma examples_bad : panics (h_encode (Hand 7 (hX base_hand) (hY base_hand) (hZ base_hand) (hT base_hand))) /\
  panics (h_encode (Hand 2 (hX base_hand) (hY base_hand) None (hT base_hand))) /\ returns (h_encode (Hand 2 (hX base_hand) (hY base_hand) (hZ base_hand) None)).
Proof.
  split; [|split].
  - apply encode_panics. left. cbn. lia.
  - apply encode_panics. right. left. unfold no3. cbn. auto.
  - destruct (encode_panics (Hand 2 (hX base_hand) (hY base_hand) (hZ base_hand) None)) as [P [Q|(b & E & _)]]; [|exists b; exact E].
    apply P in Q. destruct Q as [Q|[Q|Q]]; [cbn in Q; lia| |cbn in Q; lia]. unfold no3 in Q. cbn in Q. destruct Q as [Q|[Q|Q]]; discriminate Q.
Qed.
Lemma examples_different :
  h_equals (Hand 1 None None None None) (Hand 7 None None None None) = ([Printed (PIllegalNumber 7) 1 7], Val false) /\
  h_equals (Hand 2 None None None None) (Hand 1 None None None None) = ([Printed (PIllegalSystem P2) 2 1], Val false) /\
  h_equals (Hand 1 None None None None) (Hand 2 None None None None) = ([Printed PNil 1 1], Val false) /\
  panics (snd (h_equals (Hand 1 None None None None) (Hand 1 None None None None))).
Proof. repeat split. apply is_pan. Qed.
