(** Group elements after a panic that the caller recovered from.

    [PrecomputeForScalarMultiplication] and [PrecomputeForDoubleScalarMultiplication] store their tables in the
    receiver while they fill them, and panic in the middle for elements that are not in P3 coordinates.  Here every
    call gives the element as it is afterwards, also when it panics; entries of tables may be nil, rows too
    (a nil row is an empty one). *)
From Coq Require Import List ZArith Bool.
From Verif Require Import GoBase FieldModel GroupModel TextModel.
Import ListNotations.
Open Scope Z_scope.

(** [Ed25519GroupElement], ed25519_encode.go:2017-2032, with nil entries. *)
Record rge : Set := RGe { r_core : gcore; r_single : option (list (list (option gcore))); r_double : option (list (option gcore)) }.
Definition r_new (c : gcore) : rge := RGe c None None.
(** Results; [RNil]: the error "get nil object - don't work ", ed25519_encode.go:2523. *)
Inductive rres (A : Type) : Type := ROk (a : A) | RErr (e : err) | RNil | RPanic.
Arguments ROk {A} a. Arguments RErr {A} e. Arguments RNil {A}. Arguments RPanic {A}.
Definition of_plain {A} (x : res A) : rres A := match x with Ok a => ROk a | Err e => RErr e | Panic => RPanic end.
Definition rbind {A B} (x : rres A) (f : A -> rres B) : rres B :=
  match x with ROk a => f a | RErr e => RErr e | RNil => RNil | RPanic => RPanic end.

(** the loop over j, ed25519_encode.go:2458-2468: the row (8 nils, :2456) as it is filled, whether it panics *)
Fixpoint fill_row (n : nat) (Bi Bij : gcore) : list (option gcore) * bool :=
  match n with
  | O => ([], false)
  | S k =>
      let e := prec_entry Bij in
      match add_P3 Bij Bi with
      | Ok Bij' => let (r, p) := fill_row k Bi Bij' in (Some e :: r, p)
      | _ => (Some e :: repeat None k, true)
      end
  end.
(** the loop over i, ed25519_encode.go:2455-2474: the table of 32 nil rows (:2454) as it is filled *)
Fixpoint fill_rows (n : nat) (Bi : gcore) : list (list (option gcore)) * bool :=
  match n with
  | O => ([], false)
  | S k =>
      let (row, p) := fill_row 8 Bi Bi in
      if p then (row :: repeat [] k, true) else
      match dbl_n 8 Bi with
      | Ok Bi' => let (rs, p) := fill_rows k Bi' in (row :: rs, p)
      | _ => (row :: repeat [] k, true)
      end
  end.
(** whether [copy], ed25519_encode.go:2422-2444, panics: a row longer than 8 *)
Definition copy_panics (g : rge) : bool :=
  match r_single g with Some rows => existsb (fun row => Nat.ltb 8 (length row)) rows | None => false end.
(** [PrecomputeForScalarMultiplication], ed25519_encode.go:2447-2476: the receiver afterwards, whether it panicked. *)
Definition r_precompute_single (g : rge) : rge * bool :=
  match r_single g with
  | Some _ => (g, false)
  | None => let (rows, p) := fill_rows 32 (r_core g) in (RGe (r_core g) (Some rows) (r_double g), p)
  end.
(** the loop of [PrecomputeForDoubleScalarMultiplication], ed25519_encode.go:2487-2497. *)
Fixpoint fill_double (n : nat) (r Bi : gcore) : list (option gcore) * bool :=
  match n with
  | O => ([], false)
  | S k =>
      let e := prec_entry Bi in
      match add_P3 r Bi with
      | Ok s => match add_P3 r s with
                | Ok Bi' => let (l, p) := fill_double k r Bi' in (Some e :: l, p)
                | _ => (Some e :: repeat None k, true)
                end
      | _ => (Some e :: repeat None k, true)
      end
  end.
(** [PrecomputeForDoubleScalarMultiplication], ed25519_encode.go:2479-2498. *)
Definition r_precompute_double (g : rge) : rge * bool :=
  match r_double g with
  | Some (_ :: _) => (g, false)
  | _ =>
      if copy_panics g then (RGe (r_core g) (r_single g) (Some (repeat None 8)), true) else
      let (l, p) := fill_double 8 (r_core g) (r_core g) in (RGe (r_core g) (r_single g) (Some l), p)
  end.
(** [IsPrecomputedForDoubleScalarMultiplication], ed25519_encode.go:2301-2304. *)
Definition r_is_precomputed_double (g : rge) : bool := match r_double g with None => false | Some _ => true end.

(** a sequence of precomputations, every panic recovered: the element, and which calls panicked *)
Definition r_step (g : rge) (c : pcall) : rge * bool :=
  match c with PSingle => r_precompute_single g | PDouble => r_precompute_double g end.
Fixpoint r_run (g : rge) (cs : list pcall) : rge * list bool :=
  match cs with [] => (g, []) | c :: r => let (g', p) := r_step g c in let (g'', ps) := r_run g' r in (g'', p :: ps) end.

(** [cmov], ed25519_encode.go:2783-2791, with a possibly nil argument, and the test for nil in [Select], :2518-2527. *)
Definition r_cmov (r : gcore) (u : option gcore) (b : Z) : rres gcore :=
  if b =? 1 then match u with Some x => ROk x | None => RNil end else if b =? 0 then ROk r else RErr ErrCmov.
Fixpoint r_select_loop (bAbs : Z) (i : Z) (row : list (option gcore)) (t : gcore) : rres gcore :=
  match row with
  | [] => ROk t
  | el :: r => rbind (r_cmov t el (byte_eq_int bAbs (i + 1))) (r_select_loop bAbs (i + 1) r)
  end.
(** [Select], ed25519_encode.go:2510-2533. *)
Definition r_select (g : rge) (pos b : Z) : rres gcore :=
  let bNegative := is_negative_ct b in
  let bAbs := w64 (b - w64 (Z.land (- bNegative) b * 2)) in
  if pos <? 0 then RPanic else
  match r_single g with
  | None => RPanic
  | Some rows =>
      match nth_error rows (Z.to_nat pos) with
      | None => RPanic
      | Some row =>
          rbind (r_select_loop bAbs 0 row zero_precomputed) (fun t =>
          of_plain (g_cmov t (newPrecomputed (gY t) (gX t) (fe_neg (gZ t))) bNegative))
      end
  end.
(** [scalarMultiply], ed25519_encode.go:2801-2830. *)
Definition r_sm_step (g : rge) (e : list Z) (i : nat) (h : gcore) : rres gcore :=
  rbind (r_select g (Z.of_nat (i / 2)) (nth i e 0)) (fun s => of_plain (do t <- g_precomputedAdd h s; to_P3 t)).
Fixpoint r_sm_loop (g : rge) (e : list Z) (is : list nat) (h : gcore) : rres gcore :=
  match is with
  | [] => ROk h
  | i :: r => rbind (r_sm_step g e i h) (r_sm_loop g e r)
  end.
Definition r_scalar_multiply (g : rge) (a : bytes) : rres gcore :=
  rbind (of_plain (to_radix16 a)) (fun e =>
  rbind (r_sm_loop g e (map (fun k => 2 * k + 1)%nat (seq 0 32)) zero_P3) (fun h =>
  rbind (of_plain (do d1 <- g_dbl h; do h1 <- to_P2 d1; do d2 <- g_dbl h1; do h2 <- to_P2 d2;
                   do d3 <- g_dbl h2; do h3 <- to_P2 d3; do d4 <- g_dbl h3; to_P3 d4)) (fun h4 =>
  r_sm_loop g e (map (fun k => 2 * k)%nat (seq 0 32)) h4))).

(** [doubleScalarMultiplyVariableTime], ed25519_encode.go:2842-2880, with possibly nil entries:
    [precomputedAdd] (:2617-2623) and [precomputedSubtract] look at their argument after the receiver. *)
Definition r_tab_at (t : option (list (option gcore))) (i : Z) : res (option gcore) :=
  match t with
  | None => Panic
  | Some l => if i <? 0 then Panic else match nth_error l (Z.to_nat i) with Some e => Ok e | None => Panic end
  end.
Definition r_prec_add (h : gcore) (e : option gcore) : res gcore :=
  match e with
  | Some x => g_precomputedAdd h x
  | None => if negb (csys_eqb (g_cs h) P3) then Err ErrUnsupported else Panic
  end.
Definition r_prec_sub (h : gcore) (e : option gcore) : res gcore :=
  match e with Some x => g_precomputedSubtract h x | None => Panic end.
Definition r_dsm_step (B A : rge) (ai bi : Z) (r : gcore) : res gcore :=
  do t <- g_dbl r;
  do t <- (if 0 <? ai then
             do t3 <- to_P3 t; do e <- r_tab_at (r_double A) (Z.quot ai 2); r_prec_sub t3 e
           else if ai <? 0 then
             do t3 <- to_P3 t; do e <- r_tab_at (r_double A) (Z.quot (w8 (- ai)) 2); r_prec_add t3 e
           else Ok t);
  do t <- (if 0 <? bi then
             do t3 <- to_P3 t; do e <- r_tab_at (r_double B) (Z.quot bi 2); r_prec_add t3 e
           else if bi <? 0 then
             do t3 <- to_P3 t; do e <- r_tab_at (r_double B) (Z.quot (w8 (- bi)) 2); r_prec_sub t3 e
           else Ok t);
  to_P2 t.
Fixpoint r_dsm_loop (B A : rge) (ds : list (Z * Z)) (flag : bool) (r : gcore) : res gcore :=
  match ds with
  | [] => Ok r
  | (ai, bi) :: ds' =>
      let flag := flag || negb (ai =? 0) || negb (bi =? 0) in
      do r' <- (if flag then r_dsm_step B A ai bi r else Ok r);
      r_dsm_loop B A ds' flag r'
  end.
Definition r_double_scalar_multiply (B A : rge) (a b : bytes) : res gcore :=
  do aSlide <- slide a;
  do bSlide <- slide b;
  r_dsm_loop B A (rev (combine aSlide bSlide)) false zero_P2.
(** an element of [GroupModel], without nil entries *)
Definition of_ge (g : ge) : rge :=
  RGe (core g) (match single g with Some rows => Some (map (map Some) rows) | None => None end)
    (match double g with Some l => Some (map Some l) | None => None end).
