(** Group elements as Go objects: an element holds pointers to its coordinates and tables of pointers to
    other elements; [copy], [toCoordinateSystem] and [Select] share such pointers.  The values are
    computed by [GroupModel].  Temporary objects that no caller can get at are not allocated here. *)
From Coq Require Import List ZArith Bool.
From Verif Require Import GoBase FieldModel Tables GroupModel.
Import ListNotations.
Open Scope nat_scope.

(** [Ed25519GroupElement], ed25519_encode.go:2017-2033: addresses of field elements and, in the tables,
    of elements.  The table slices themselves belong to one element only ([copy] makes new ones). *)
Record hobj : Set := HO {
  ho_cs : csys; ho_X : nat; ho_Y : nat; ho_Z : nat; ho_T : option nat;
  ho_single : option (list (list nat)); ho_double : option (list nat) }.
Record mem : Set := Mem { cells : list fe; objs : list hobj }.

Definition cell (m : mem) (p : nat) : fe := nth p (cells m) fe_zero.
(** What an element is worth at a moment. *)
Definition hcore (m : mem) (o : hobj) : gcore :=
  G (ho_cs o) (cell m (ho_X o)) (cell m (ho_Y o)) (cell m (ho_Z o)) (option_map (cell m) (ho_T o)).
Definition entry (m : mem) (a : nat) : gcore :=
  match nth_error (objs m) a with Some o => hcore m o | None => zero_P2 end.
Definition hval (m : mem) (o : hobj) : ge :=
  Ge (hcore m o) (option_map (map (map (entry m))) (ho_single o)) (option_map (map (entry m)) (ho_double o)).

(** A coordinate of a new element: an existing pointer, or the address of a new value. *)
Inductive src : Set := Sh (p : nat) | Fr (f : fe).
Definition put (m : mem) (s : src) : mem * nat :=
  match s with
  | Sh p => (m, p)
  | Fr f => (Mem (cells m ++ [f]) (objs m), length (cells m))
  end.
Definition put_opt (m : mem) (s : option src) : mem * option nat :=
  match s with
  | None => (m, None)
  | Some s => let (m', p) := put m s in (m', Some p)
  end.
(** [NewEd25519GroupElement], ed25519_encode.go:2036-2051; returns the address. *)
Definition new_obj (m : mem) (o : hobj) : mem * nat := (Mem (cells m) (objs m ++ [o]), length (objs m)).
Definition new_elem (m : mem) (c : csys) (x y z : src) (t : option src) : mem * nat :=
  let (m1, px) := put m x in
  let (m2, py) := put m1 y in
  let (m3, pz) := put m2 z in
  let (m4, pt) := put_opt m3 t in
  new_obj m4 (HO c px py pz pt None None).
(** an element all of whose coordinates are new: results of [add], [subtract], [dbl], [negate],
    [precomputedAdd], [precomputedSubtract], [scalarMultiply], [doubleScalarMultiplyVariableTime],
    [Decode] *)
Definition fresh (m : mem) (g : gcore) : mem * nat :=
  new_elem m (g_cs g) (Fr (gX g)) (Fr (gY g)) (Fr (gZ g)) (option_map Fr (gT g)).
Fixpoint fresh_row (m : mem) (l : list gcore) : mem * list nat :=
  match l with
  | [] => (m, [])
  | g :: r => let (m1, a) := fresh m g in let (m2, l') := fresh_row m1 r in (m2, a :: l')
  end.
Fixpoint fresh_rows (m : mem) (l : list (list gcore)) : mem * list (list nat) :=
  match l with
  | [] => (m, [])
  | g :: r => let (m1, a) := fresh_row m g in let (m2, l') := fresh_rows m1 r in (m2, a :: l')
  end.

(** [copy], ed25519_encode.go:2422-2444: new tables with the same entries, the same coordinate
    pointers. *)
Definition copy_h (m : mem) (o : hobj) : res (mem * nat) :=
  do _ <- g_copy (hval m o);
  Ok (new_obj m (HO (ho_cs o) (ho_X o) (ho_Y o) (ho_Z o) (ho_T o)
       (Some (match ho_single o with Some t => t | None => [] end))
       (Some (match ho_double o with Some t => t | None => [] end)))).

(** [toCoordinateSystem], ed25519_encode.go:2354-2419. *)
Definition to_cs_h (m : mem) (o : hobj) (n : csys) : res (mem * nat) :=
  let X := Sh (ho_X o) in let Y := Sh (ho_Y o) in let Z := Sh (ho_Z o) in let T := option_map Sh (ho_T o) in
  do v <- to_cs (hcore m o) n;
  Ok (match ho_cs o, n with
      | P2, P2 | P3, P2 => new_elem m P2 X Y Z None
      | P3, P3 => new_elem m P3 X Y Z T
      | P3, CACHED => new_elem m CACHED (Fr (gX v)) (Fr (gY v)) Z (option_map Fr (gT v))
      | P1xP1, P1xP1 => new_elem m P1xP1 X Y Z T
      | PRECOMPUTED, PRECOMPUTED => new_elem m PRECOMPUTED X Y Z None
      | CACHED, CACHED => new_elem m CACHED X Y Z T
      | _, _ => fresh m v
      end).

(** The loop of [Select], ed25519_encode.go:2518-2526, on pointers: [cmov] returns one of its two
    pointers. *)
Definition cmov_h (r u : nat) (b : Z) : res nat :=
  if (b =? 1)%Z then Ok u else if (b =? 0)%Z then Ok r else Err ErrCmov.
Fixpoint select_loop_h (bAbs : Z) (i : Z) (row : list nat) (t : nat) : res nat :=
  match row with
  | [] => Ok t
  | el :: r => do t' <- cmov_h t el (is_byte_eq_ct bAbs (i + 1)); select_loop_h bAbs (i + 1) r t'
  end.
(** [Select], ed25519_encode.go:2510-2533. *)
Definition select_h (m : mem) (o : hobj) (pos : nat) (b : Z) : res (mem * nat) :=
  let bNegative := is_negative_ct b in
  let bAbs := (b - Z.shiftl (Z.land (- bNegative) b) 1)%Z in
  let (m0, z) := fresh m zero_precomputed in
  match ho_single o with
  | None => Panic
  | Some rows =>
      match nth_error rows pos with
      | None => Panic
      | Some row =>
          do t <- select_loop_h bAbs 0 row z;
          match nth_error (objs m0) t with
          | None => Panic
          | Some e =>
              let (m1, tMinus) := new_elem m0 PRECOMPUTED (Sh (ho_Y e)) (Sh (ho_X e)) (Fr (fe_neg (cell m0 (ho_Z e)))) None in
              do r <- cmov_h t tMinus bNegative;
              Ok (m1, r)
          end
      end
  end.

Definition set_obj (m : mem) (a : nat) (o : hobj) : mem :=
  Mem (cells m) (firstn a (objs m) ++ [o] ++ skipn (S a) (objs m)).
(** [PrecomputeForScalarMultiplication], ed25519_encode.go:2447-2476: the receiver gets a new table. *)
Definition precompute_single_h (m : mem) (a : nat) (o : hobj) : res mem :=
  match ho_single o with
  | Some _ => Ok m
  | None =>
      do g <- g_precompute_single (hval m o);
      let (m1, t) := fresh_rows m (match single g with Some t => t | None => [] end) in
      Ok (set_obj m1 a (HO (ho_cs o) (ho_X o) (ho_Y o) (ho_Z o) (ho_T o) (Some t) (ho_double o)))
  end.
(** [PrecomputeForDoubleScalarMultiplication], ed25519_encode.go:2479-2498. *)
Definition precompute_double_h (m : mem) (a : nat) (o : hobj) : res mem :=
  match ho_double o with
  | Some (_ :: _) => Ok m
  | _ =>
      do g <- g_precompute_double (hval m o);
      let (m1, t) := fresh_row m (match double g with Some t => t | None => [] end) in
      Ok (set_obj m1 a (HO (ho_cs o) (ho_X o) (ho_Y o) (ho_Z o) (ho_T o) (ho_single o) (Some t)))
  end.

(** The package after [init], ed25519_encode.go:1957-1980: the memory and the address of the base point
    that [BASE_POINT], :1935-1937, copies. *)
Definition install (g : ge) : res (mem * nat) :=
  let (m1, s) := fresh_rows (Mem [] []) (match single g with Some t => t | None => [] end) in
  let (m2, d) := fresh_row m1 (match double g with Some t => t | None => [] end) in
  let (m3, a) := fresh m2 (core g) in
  match nth_error (objs m3) a with
  | Some o => Ok (set_obj m3 a (HO (ho_cs o) (ho_X o) (ho_Y o) (ho_Z o) (ho_T o) (Some s) (Some d)), a)
  | None => Panic
  end.
Definition init_mem : res (mem * nat) := do g <- get_base_point; install g.

(** Calls on elements given by their addresses; and the one thing a program outside of the library can do
    to an element: write to a coordinate ([el.X.Raw], [el.GetX().Raw], ... are exported). *)
Inductive coord : Set := CX | CY | CZ | CT.
Inductive gop : Set :=
| GBasePoint
| GCopy (a : nat)
| GToCs (a : nat) (n : csys)
| GSelect (a pos : nat) (b : Z)
| GPrecomputeSingle (a : nat)
| GPrecomputeDouble (a : nat)
| GScalarMultiply (a : nat) (s : bytes)
| GDoubleScalarMultiply (a b : nat) (s t : bytes)
| GAdd (a b : nat) | GSubtract (a b : nat) | GPrecomputedAdd (a b : nat) | GPrecomputedSubtract (a b : nat)
| GDbl (a : nat) | GNegate (a : nat)
| GDecode (raw : bytes)
| GWrite (a : nat) (c : coord) (f : fe).

Definition coord_ptr (o : hobj) (c : coord) : option nat :=
  match c with CX => Some (ho_X o) | CY => Some (ho_Y o) | CZ => Some (ho_Z o) | CT => ho_T o end.
Definition set_cell (m : mem) (p : nat) (f : fe) : mem :=
  Mem (firstn p (cells m) ++ [f] ++ skipn (S p) (cells m)) (objs m).

(** [None]: no such element, or a panic.  Otherwise the memory and the address of the element returned,
    if one is. *)
Definition gstep (base : nat) (m : mem) (op : gop) : option (mem * option nat) :=
  let at1 a (f : hobj -> res (mem * option nat)) :=
    match nth_error (objs m) a with
    | None => None
    | Some o => match f o with Ok r => Some r | Err _ => Some (m, None) | Panic => None end
    end in
  let elem (r : res (mem * nat)) := do x <- r; Ok (fst x, Some (snd x)) in
  let value (r : res gcore) := do g <- r; let (m', a) := fresh m g in Ok (m', Some a) in
  match op with
  | GBasePoint => at1 base (fun o => elem (copy_h m o))
  | GCopy a => at1 a (fun o => elem (copy_h m o))
  | GToCs a n => at1 a (fun o => elem (to_cs_h m o n))
  | GSelect a pos b => at1 a (fun o => elem (select_h m o pos b))
  | GPrecomputeSingle a => at1 a (fun o => do m' <- precompute_single_h m a o; Ok (m', None))
  | GPrecomputeDouble a => at1 a (fun o => do m' <- precompute_double_h m a o; Ok (m', None))
  | GScalarMultiply a s => at1 a (fun o => value (g_scalarMultiply (hval m o) s))
  | GDoubleScalarMultiply a b s t =>
      at1 a (fun o => match nth_error (objs m) b with
                      | Some o2 => value (g_doubleScalarMultiply (hval m o) (hval m o2) s t)
                      | None => Panic end)
  | GAdd a b => at1 a (fun o => match nth_error (objs m) b with
                      | Some o2 => value (g_add (hcore m o) (hcore m o2)) | None => Panic end)
  | GSubtract a b => at1 a (fun o => match nth_error (objs m) b with
                      | Some o2 => value (g_subtract (hcore m o) (hcore m o2)) | None => Panic end)
  | GPrecomputedAdd a b => at1 a (fun o => match nth_error (objs m) b with
                      | Some o2 => value (g_precomputedAdd (hcore m o) (hcore m o2)) | None => Panic end)
  | GPrecomputedSubtract a b => at1 a (fun o => match nth_error (objs m) b with
                      | Some o2 => value (g_precomputedSubtract (hcore m o) (hcore m o2)) | None => Panic end)
  | GDbl a => at1 a (fun o => value (g_dbl (hcore m o)))
  | GNegate a => at1 a (fun o => value (g_negate (hcore m o)))
  | GDecode raw =>
      match value (do e <- new_ege raw; g_decode e) with Ok r => Some r | Err _ => Some (m, None) | Panic => None end
  | GWrite a c f =>
      at1 a (fun o => match coord_ptr o c with Some p => Ok (set_cell m p f, None) | None => Panic end)
  end.
Fixpoint grun (base : nat) (m : mem) (os : list gop) : option mem :=
  match os with
  | [] => Some m
  | o :: r => match gstep base m o with Some (m', _) => grun base m' r | None => None end
  end.
