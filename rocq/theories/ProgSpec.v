(** The same programs with points of the curve (C76): an element is a coordinate system, a point, and the state of its two
    tables.  No field arithmetic, no coordinates, no table entries. *)
From Coq Require Import List ZArith Bool.
From Verif Require Import GoBase GroupModel GroupSpec Curve BasePoint ScalarSpec TextModel TextSpec ProgModel.
Import ListNotations.
Open Scope Z_scope.

(** A table: never made; empty (what [copy] makes of one that was never made); filled. *)
Inductive table : Set := Missing | Empty | Full.
Record elem : Type := Elem { e_cs : csys; e_pt : point; e_single : table; e_double : table }.
Definition plain (c : csys) (P : point) : elem := Elem c P Missing Missing.

(** conversions that exist *)
Definition converts (a b : csys) : bool :=
  match a, b with
  | P2, P2 => true
  | P3, P2 | P3, P3 | P3, CACHED => true
  | P1xP1, P2 | P1xP1, P3 | P1xP1, P1xP1 => true
  | PRECOMPUTED, PRECOMPUTED => true
  | CACHED, CACHED => true
  | _, _ => false
  end.
(** systems with coordinates that [Encode] can normalise *)
Definition projective (c : csys) : bool := match c with P2 | P3 | P1xP1 => true | _ => false end.
Definition is_P3 (c : csys) : bool := match c with P3 => true | _ => false end.
Definition is_full (t : table) : bool := match t with Full => true | _ => false end.
Definition first32 (a : bytes) : Z := le_val (firstn 32 a).
Definition long (a : bytes) : bool := Nat.leb 32 (length a).
Definition p_bin (o : binop) (x y : elem) : res elem :=
  match o with
  | OpAdd => match e_cs x, e_cs y with P3, CACHED => Ok (plain P1xP1 (padd (e_pt x) (e_pt y))) | _, _ => Panic end
  | OpSubtract => match e_cs x, e_cs y with P3, CACHED => Ok (plain P1xP1 (psub (e_pt x) (e_pt y))) | _, _ => Panic end
  | OpPrecomputedAdd =>
      match e_cs x, e_cs y with
      | P3, PRECOMPUTED => Ok (plain P1xP1 (padd (e_pt x) (e_pt y)))
      | P3, _ => Err ErrIllegalArgument
      | _, _ => Err ErrUnsupported
      end
  | OpPrecomputedSubtract =>
      match e_cs x, e_cs y with P3, PRECOMPUTED => Ok (plain P1xP1 (psub (e_pt x) (e_pt y))) | _, _ => Panic end
  end.
Definition p_copied (t : table) : table := match t with Missing => Empty | t => t end.

(** [pt raw] is the point that 32 bytes denote, if any. *)
Definition point_ops (pt : bytes -> option point) : ops elem := {|
  o_const := fun k => Ok (match k with
             | KZeroP2 => plain P2 pzero | KZeroP3 => plain P3 pzero | KZeroPrecomputed => plain PRECOMPUTED pzero
             | KBase => Elem P3 Bpt Full Full end);
  o_decode := fun raw => if Nat.eqb (length raw) 32
             then match pt raw with Some P => Ok (plain P3 P) | None => Err ErrNotOnCurve end
             else Err ErrEncodedGroup;
  o_copy := fun x => Ok (Elem (e_cs x) (e_pt x) (p_copied (e_single x)) (p_copied (e_double x)));
  o_to := fun x c => if converts (e_cs x) c then Ok (plain c (e_pt x)) else Panic;
  o_dbl := fun x => match e_cs x with P2 | P3 => Ok (plain P1xP1 (padd (e_pt x) (e_pt x))) | _ => Panic end;
  o_negate := fun x => if is_P3 (e_cs x) then Ok (plain P3 (pneg (e_pt x))) else Err ErrUnsupported;
  o_bin := p_bin;
  o_select := fun x pos b => if is_full (e_single x) && (0 <=? pos) && (pos <? 32)
             then Ok (plain PRECOMPUTED (zmul (digit b * 256 ^ pos) (e_pt x))) else Panic;
  o_mul := fun x a => if is_full (e_single x) && long a
             then Ok (plain P3 (zmul (single_scalar (first32 a)) (e_pt x))) else Panic;
  (* b times the receiver minus a times the argument; a table is only needed for a scalar that is not zero *)
  o_dmul := fun x y a b => if long a && long b && (is_full (e_double y) || (first32 a =? 0)) && (is_full (e_double x) || (first32 b =? 0))
             then Ok (plain P2 (psub (zmul (double_scalar (first32 b)) (e_pt x)) (zmul (double_scalar (first32 a)) (e_pt y)))) else Panic;
  o_precompute := fun k x => match k with
             | PSingle => match e_single x with
                          | Missing => if is_P3 (e_cs x) then Ok (Elem (e_cs x) (e_pt x) Full (e_double x)) else Panic
                          | _ => Ok x end
             | PDouble => match e_double x with
                          | Full => Ok x
                          | _ => if is_P3 (e_cs x) then Ok (Elem (e_cs x) (e_pt x) (e_single x) Full) else Panic end
             end;
  o_equals := fun x y => Ok (converts (e_cs y) (e_cs x) && if point_eq_dec (e_pt x) (e_pt y) then true else false);
  o_encode := fun x => if projective (e_cs x) then Ok (enc_point (e_pt x)) else Panic;
  o_satisfies := fun x => if projective (e_cs x) then Ok true else Panic;
  o_is_precomputed := fun x => match e_double x with Missing => false | _ => true end
|}.
(** [pt] finds the points that 32-byte strings denote. *)
Definition finds_points (pt : bytes -> option point) : Prop :=
  forall raw, wf_bytes raw -> length raw = 32%nat -> forall P, pt raw = Some P <-> denotes raw P.
(** the byte strings in a program are bytes *)
Definition wf_instr (i : instr) : Prop :=
  match i with
  | IDecode raw => wf_bytes raw
  | IMul _ a => wf_bytes a
  | IDoubleMul _ _ a b => wf_bytes a /\ wf_bytes b
  | _ => True
  end.
(** Two programs that differ in strings that denote the same point. *)
Definition string_of (raw : bytes) (P : point) : Prop := wf_bytes raw /\ length raw = 32%nat /\ denotes raw P.
Definition exchanged : list instr -> list instr -> Prop :=
  Forall2 (fun i j => i = j \/ exists a b P, i = IDecode a /\ j = IDecode b /\ string_of a P /\ string_of b P).
