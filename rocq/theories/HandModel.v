(** Group elements made by hand.  [NewEd25519GroupElement] is exported and takes any number as coordinate system and any
    pointers, also nil, as coordinates; [GroupModel] has neither.  Here are the methods that use no tables, on such
    elements, with the values of their panics and what they print. *)
From Coq Require Import List ZArith Bool String DecimalString.
From Verif Require Import GoBase FieldModel ScalarModel Tables GroupModel TextModel ApiModel.
Import ListNotations.
Open Scope list_scope.
Open Scope Z_scope.

(** [Ed25519GroupElement] without its tables, ed25519_encode.go:2017-2033, as made by [NewEd25519GroupElement], :2035-2049.
    None is a nil pointer. *)
Record hand : Set := Hand { h_cs : Z; hX : option fe; hY : option fe; hZ : option fe; hT : option fe }.
(** The numbers of the coordinate systems, ed25519_encode.go:1910-1926. *)
Definition number (c : csys) : Z :=
  match c with AFFINE => 0 | P2 => 1 | P3 => 2 | P1xP1 => 3 | PRECOMPUTED => 4 | CACHED => 5 end.
Definition system (n : Z) : option csys :=
  if n =? 0 then Some AFFINE else if n =? 1 then Some P2 else if n =? 2 then Some P3 else
  if n =? 3 then Some P1xP1 else if n =? 4 then Some PRECOMPUTED else if n =? 5 then Some CACHED else None.

(** The values of panics. *)
Inductive pval : Set :=
| PNil                     (* runtime error: invalid memory address or nil pointer dereference *)
| PIllegalSystem (c : csys)(* "NewIllegalArgumentException P2" and so on, ed25519_encode.go:2361, :2376, :2395, :2404, :2412 *)
| PIllegalNumber (n : Z)   (* "NewIllegalArgumentException(7)" and so on, ed25519_encode.go:2416 *)
| PUnsupported             (* "NewUnsupportedOperationException", ed25519_encode.go:2663, :2706, :2745 *)
| PUnsupportedCall         (* "NewUnsupportedOperationException()", ed25519_encode.go:2579 *)
| PIllegal                 (* "NewIllegalArgumentException", ed25519_encode.go:2667, :2710, :2749 *)
| PSystem.                 (* "not supportet coor type", ed25519_encode.go:2146 *)
Inductive out (A : Type) : Type := Val (a : A) | Fail (e : err) | Pan (v : pval).
Arguments Val {A}. Arguments Fail {A}. Arguments Pan {A}.
Definition obind {A B} (x : out A) (f : A -> out B) : out B := match x with Val a => f a | Fail e => Fail e | Pan v => Pan v end.
(** use of a pointer *)
Definition need {A B} (o : option A) (f : A -> out B) : out B := match o with Some a => f a | None => Pan PNil end.
Definition of_res {A} (x : res A) : out A := match x with Ok a => Val a | Err e => Fail e | Panic => Pan PNil end.

Definition mk (c : csys) (x y z : fe) (t : option fe) : hand := Hand (number c) (Some x) (Some y) (Some z) t.
(** [toCoordinateSystem], ed25519_encode.go:2354-2419. *)
Definition h_to (g : hand) (n : Z) : out hand :=
  match system (h_cs g) with
  | Some P2 => match system n with
               | Some P2 => Val (Hand (number P2) (hX g) (hY g) (hZ g) None)
               | _ => Pan (PIllegalSystem P2) end
  | Some P3 => match system n with
               | Some P2 => Val (Hand (number P2) (hX g) (hY g) (hZ g) None)
               | Some P3 => Val (Hand (number P3) (hX g) (hY g) (hZ g) (hT g))
               | Some CACHED => need (hY g) (fun y => need (hX g) (fun x => need (hT g) (fun t =>
                   Val (Hand (number CACHED) (Some (fe_add y x)) (Some (fe_sub y x)) (hZ g) (Some (fe_mul t go_d2))))))
               | _ => Pan (PIllegalSystem P3) end
  | Some P1xP1 => match system n with
               | Some P2 => need (hX g) (fun x => need (hT g) (fun t => need (hY g) (fun y => need (hZ g) (fun z =>
                   Val (mk P2 (fe_mul x t) (fe_mul y z) (fe_mul z t) None)))))
               | Some P3 => need (hX g) (fun x => need (hT g) (fun t => need (hY g) (fun y => need (hZ g) (fun z =>
                   Val (mk P3 (fe_mul x t) (fe_mul y z) (fe_mul z t) (Some (fe_mul x y)))))))
               | Some P1xP1 => Val (Hand (number P1xP1) (hX g) (hY g) (hZ g) (hT g))
               | _ => Pan (PIllegalSystem P1xP1) end
  | Some PRECOMPUTED => match system n with
               | Some PRECOMPUTED => Val (Hand (number PRECOMPUTED) (hX g) (hY g) (hZ g) None)
               | _ => Pan (PIllegalSystem PRECOMPUTED) end
  | Some CACHED => match system n with
               | Some CACHED => Val (Hand (number CACHED) (hX g) (hY g) (hZ g) (hT g))
               | _ => Pan (PIllegalSystem CACHED) end
  | _ => Pan (PIllegalNumber (h_cs g))
  end.
(** [Encode], ed25519_encode.go:2308-2325; the part for P2 and P3. *)
Definition h_encode_proj (g : hand) : out bytes :=
  need (hZ g) (fun z => need (hX g) (fun x => need (hY g) (fun y =>
    let inverse := fe_invert z in
    of_res (new_ege (set_sign (fe_is_negative (fe_mul x inverse)) (fe_encode (fe_mul y inverse))))))).
Definition h_encode (g : hand) : out bytes :=
  match system (h_cs g) with
  | Some P2 | Some P3 => h_encode_proj g
  | _ => obind (h_to g (number P2)) h_encode_proj
  end.
(** [SatisfiesCurveEquation], ed25519_encode.go:2884-2898. *)
Definition h_satisfies_proj (g : hand) : out bool :=
  need (hZ g) (fun z => need (hX g) (fun x => need (hY g) (fun y =>
    let inverse := fe_invert z in
    let xSquare := fe_sq (fe_mul x inverse) in
    let ySquare := fe_sq (fe_mul y inverse) in
    let dXSquareYSquare := fe_mul (fe_mul go_d xSquare) ySquare in
    Val (beq_bytes (fe_encode (fe_add (fe_add fe_one dXSquareYSquare) xSquare)) (fe_encode ySquare))))).
Definition h_satisfies (g : hand) : out bool :=
  match system (h_cs g) with
  | Some P2 | Some P3 => h_satisfies_proj g
  | _ => obind (h_to g (number P2)) h_satisfies_proj
  end.
(** [dbl], ed25519_encode.go:2563-2582. *)
Definition h_dbl (g : hand) : out hand :=
  match system (h_cs g) with
  | Some P2 | Some P3 => need (hX g) (fun x => need (hY g) (fun y => need (hZ g) (fun z =>
      let XSquare := fe_sq x in
      let YSquare := fe_sq y in
      let B := fe_sq2 z in
      let ASquare := fe_sq (fe_add x y) in
      let plus := fe_add YSquare XSquare in
      let minus := fe_sub YSquare XSquare in
      Val (mk P1xP1 (fe_sub ASquare plus) plus minus (Some (fe_sub B minus))))))
  | _ => Pan PUnsupportedCall
  end.
(** all coordinates of a P3 receiver *)
Definition need4 {B} (g : hand) (f : fe -> fe -> fe -> fe -> out B) : out B :=
  need (hX g) (fun x => need (hY g) (fun y => need (hZ g) (fun z => need (hT g) (fun t => f x y z t)))).
Definition is_sys (g : hand) (c : csys) : bool := h_cs g =? number c.
(** [add] and [subtract], ed25519_encode.go:2704-2733 and :2743-2766. *)
Definition h_add (r g : hand) : out hand :=
  if negb (is_sys r P3) then Pan PUnsupported else
  if negb (is_sys g CACHED) then Pan PIllegal else
  need4 r (fun x y z t => need4 g (fun x' y' z' t' =>
    let B := fe_mul (fe_add y x) x' in
    let A := fe_mul (fe_sub y x) y' in
    let C := fe_mul t' t in
    let ZSquare := fe_mul z z' in
    let D := fe_add ZSquare ZSquare in
    Val (mk P1xP1 (fe_sub B A) (fe_add A B) (fe_add D C) (Some (fe_sub D C))))).
Definition h_subtract (r g : hand) : out hand :=
  if negb (is_sys r P3) then Pan PUnsupported else
  if negb (is_sys g CACHED) then Pan PIllegal else
  need4 r (fun x y z t => need4 g (fun x' y' z' t' =>
    let A := fe_mul (fe_add y x) y' in
    let B := fe_mul (fe_sub y x) x' in
    let C := fe_mul t' t in
    let ZSquare := fe_mul z z' in
    let D := fe_add ZSquare ZSquare in
    Val (mk P1xP1 (fe_sub A B) (fe_add A B) (fe_sub D C) (Some (fe_add D C))))).
(** [precomputedAdd] and [precomputedSubtract], ed25519_encode.go:2617-2649 and :2661-2683. *)
Definition h_precomputedAdd (r g : hand) : out hand :=
  if negb (is_sys r P3) then Fail ErrUnsupported else
  if negb (is_sys g PRECOMPUTED) then Fail ErrIllegalArgument else
  need4 r (fun x y z t => need (hX g) (fun x' => need (hY g) (fun y' => need (hZ g) (fun z' =>
    let A := fe_mul (fe_sub y x) y' in
    let B := fe_mul (fe_add y x) x' in
    let C := fe_mul t z' in
    let D := fe_add z z in
    Val (mk P1xP1 (fe_sub B A) (fe_add A B) (fe_add D C) (Some (fe_sub D C))))))).
Definition h_precomputedSubtract (r g : hand) : out hand :=
  if negb (is_sys r P3) then Pan PUnsupported else
  if negb (is_sys g PRECOMPUTED) then Pan PIllegal else
  need4 r (fun x y z t => need (hX g) (fun x' => need (hY g) (fun y' => need (hZ g) (fun z' =>
    let A := fe_mul (fe_add y x) y' in
    let B := fe_mul (fe_sub y x) x' in
    let C := fe_mul z' t in
    let D := fe_add z z in
    Val (mk P1xP1 (fe_sub A B) (fe_add A B) (fe_sub D C) (Some (fe_add D C))))))).
(** [negate], ed25519_encode.go:2770-2777. *)
Definition h_zero : hand := mk P3 fe_zero fe_one fe_one (Some fe_zero).
Definition h_negate (r : hand) : out hand :=
  if negb (is_sys r P3) then Fail ErrUnsupported else
  obind (h_to r (number CACHED)) (fun c => obind (h_subtract h_zero c) (fun s => h_to s (number P3))).
(** [String], ed25519_encode.go:2900-2908. *)
Definition h_string (g : hand) : out bytes :=
  need4 g (fun x y z t =>
    Val (lit "X="%string ++ fe_string x ++ newline ++ lit "Y="%string ++ fe_string y ++ newline ++
         lit "Z="%string ++ fe_string z ++ newline ++ lit "T="%string ++ fe_string t ++ newline)).

(** What [Equals] prints, ed25519_encode.go:2111: the value of the panic and two coordinate systems. *)
Inductive printed : Set := Printed (v : pval) (a b : Z).
(** the comparisons, ed25519_encode.go:2119-2143, with the order of evaluation of && *)
Definition c_proj (r g : hand) : out bool :=
  need (hZ r) (fun z => need (hZ g) (fun z' =>
    if fe_equals z z' then
      need (hX r) (fun x => need (hX g) (fun x' =>
        if fe_equals x x' then need (hY r) (fun y => need (hY g) (fun y' => Val (fe_equals y y'))) else Val false))
    else
      need (hX r) (fun x => need (hY r) (fun y => need (hX g) (fun x' => need (hY g) (fun y' =>
        Val (fe_equals (fe_mul x z') (fe_mul x' z) && fe_equals (fe_mul y z') (fe_mul y' z)))))))).
Definition c_precomputed (r g : hand) : out bool :=
  need (hX r) (fun x => need (hX g) (fun x' => if fe_equals x x' then
    need (hY r) (fun y => need (hY g) (fun y' => if fe_equals y y' then
      need (hZ r) (fun z => need (hZ g) (fun z' => Val (fe_equals z z'))) else Val false)) else Val false)).
Definition c_cached (r g : hand) : out bool :=
  need (hZ r) (fun z => need (hZ g) (fun z' =>
    if fe_equals z z' then
      need (hX r) (fun x => need (hX g) (fun x' => if fe_equals x x' then
        need (hY r) (fun y => need (hY g) (fun y' => if fe_equals y y' then
          need (hT r) (fun t => need (hT g) (fun t' => Val (fe_equals t t'))) else Val false)) else Val false))
    else
      need (hX r) (fun x => need (hY r) (fun y => need (hT r) (fun t =>
      need (hX g) (fun x' => need (hY g) (fun y' => need (hT g) (fun t' =>
        Val (fe_equals (fe_mul x z') (fe_mul x' z) && fe_equals (fe_mul y z') (fe_mul y' z) && fe_equals (fe_mul t z') (fe_mul t' z)))))))))).
(** the deferred function, ed25519_encode.go:2108-2114: it prints the coordinate system that the variable ge has then *)
Definition recovering (r : hand) (ge : Z) (x : out bool) : list printed * out bool :=
  match x with Pan v => ([Printed v (h_cs r) ge], Val false) | x => ([], x) end.
(** [Equals] of elements in different systems when the receiver is not P1xP1, ed25519_encode.go:2107-2143 *)
Definition h_equals_other (r g : hand) : list printed * out bool :=
  match h_to g (h_cs r) with
  | Pan v => ([Printed v (h_cs r) (h_cs g)], Val false)
  | Fail e => ([], Fail e)
  | Val g' => recovering r (h_cs g') match system (h_cs r) with
              | Some P2 | Some P3 => c_proj r g'
              | Some PRECOMPUTED => c_precomputed r g'
              | Some CACHED => c_cached r g'
              | _ => Pan PSystem
              end
  end.
(** [Equals], ed25519_encode.go:2105-2150.  Of the receivers of other systems than the argument, P1xP1 never reaches
    :2130: nothing else can be converted to P1xP1. *)
Definition h_equals (r g : hand) : list printed * out bool :=
  if negb (h_cs r =? h_cs g) then h_equals_other r g
  else match system (h_cs r) with
  | Some P2 | Some P3 => ([], c_proj r g)
  | Some P1xP1 => match h_to r (number P2) with
                  | Val r2 => h_equals_other r2 g
                  | Fail e => ([], Fail e)
                  | Pan v => ([], Pan v)
                  end
  | Some PRECOMPUTED => ([], c_precomputed r g)
  | Some CACHED => ([], c_cached r g)
  | _ => ([], Pan PSystem)
  end.

(** ** What [Verify] prints *)
Section Print.
Variable H512 : list bytes -> bytes.
(** [fmt.Println(err)] and [return false], ed25519_model.go:287-290, :292-295, :300-303, :310-313, :316-319; what was
    printed and the outcome. *)
Definition println_false (x : res bool) : list err * res bool :=
  match x with Err e => ([e], Ok false) | x => ([], x) end.
(** [Verify], ed25519_model.go:270-322. *)
Definition verify_out (kp : keypair) (mess : bytes) (sg : signature) : list err * res bool :=
  if negb (is_canonical_signature sg) then ([], Ok false) else
  if beq_bytes (kp_pub kp) (all_zero 32) then ([], Ok false) else
  let hashR := H512 [sR sg; kp_pub kp; mess] in
  println_false (
    do h <- new_efe hashR;
    do hModQ <- sc_modQ h;
    do A0 <- g_decode (kp_pub kp);
    do A <- g_precompute_double (new_ge A0);
    do B <- base_point;
    do calculatedR <- g_doubleScalarMultiply B A hModQ (sS sg);
    do encodedCalculatedR <- g_encode calculatedR;
    Ok (beq_bytes encodedCalculatedR (sR sg))).
End Print.

(** ** The bytes written to the standard output *)
Definition decimal (n : Z) : bytes := lit (NilEmpty.string_of_int (Z.to_int n)).
Definition name (c : csys) : bytes :=
  lit match c with AFFINE => "AFFINE" | P2 => "P2" | P3 => "P3" | P1xP1 => "P1xP1" | PRECOMPUTED => "PRECOMPUTED" | CACHED => "CACHED" end%string.
(** the texts of the panic values, ed25519_encode.go:2361-2416, :2579, :2663-2749, :2146, and of Go's runtime *)
Definition pval_text (v : pval) : bytes :=
  match v with
  | PNil => lit "runtime error: invalid memory address or nil pointer dereference"%string
  | PIllegalSystem c => lit "NewIllegalArgumentException "%string ++ name c
  | PIllegalNumber n => lit "NewIllegalArgumentException("%string ++ decimal n ++ lit ")"%string
  | PUnsupported => lit "NewUnsupportedOperationException"%string
  | PUnsupportedCall => lit "NewUnsupportedOperationException()"%string
  | PIllegal => lit "NewIllegalArgumentException"%string
  | PSystem => lit "not supportet coor type"%string
  end.
(** [fmt.Printf("%v, %d, %d", ...)], ed25519_encode.go:2111: no newline *)
Definition printed_text (p : printed) : bytes :=
  match p with Printed v a b => pval_text v ++ lit ", "%string ++ decimal a ++ lit ", "%string ++ decimal b end.
Definition equals_stdout (r g : hand) : bytes := flat_map printed_text (fst (h_equals r g)).
(** [fmt.Println(err)]; the texts are those of ed25519_encode.go:939 and :1860.  Simplified: no text for the other errors;
    [Verify] prints none of them (C82). *)
Definition err_text (e : err) : bytes :=
  match e with
  | ErrEncodedField => lit "Invalid 2^8 bit representation."%string
  | ErrNotOnCurve => lit "not a valid Ed25519EncodedGroupElement."%string
  | _ => []
  end.
Definition verify_stdout (H512 : list bytes -> bytes) (kp : keypair) (mess : bytes) (sg : signature) : bytes :=
  flat_map (fun e => err_text e ++ newline) (fst (verify_out H512 kp mess sg)).
